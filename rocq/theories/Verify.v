(** librksv/verify.py *)
From Verif Require Import PyBase World Codec PyFloat PyTime Algo Receipt DepBase Json Pem KeyStore
  VerifyReceipt State DepParser.
Open Scope N_scope.
Open Scope py_scope.

(** librksv/verify.py:238-240 verifyChainValue *)
Definition verifyChainValue (r : receipt) (chainingValue : str) : result unit :=
  check str_eqb chainingValue (r_previousChain r) else ChainingError (r_receiptId r);
  Ok tt.

(** librksv/verify.py:242-254 verifyChain *)
Definition verifyChain (w : world) (r : receipt) (prev : option str) : result unit :=
  do v <- r1_chain w (r_registerId r) prev;
  verifyChainValue r (b64encode v).

(** librksv/utils.py:229-241 certFingerprint *)
Definition hex2 (b : N) : str :=
  let d := fun x => if x <? 10 then 48 + x else 87 + x in [d (b / 16); d (b mod 16)].
Definition certFingerprint (w : world) (c : cert) : str :=
  join [58] (map hex2 (w_sha256 w c)).

(** librksv/verify.py:256-297 verifyCert; [prev] is the certificate looked at,
    [first] the group's. *)
Fixpoint verifyCert_from (w : world) (ks : keystore) (first prev : cert) (chain : list cert) : result unit :=
  let keyId := numSerialToKeyId (w_serial w prev) in
  match getCert ks keyId with
  | Some k =>
      check str_eqb (certFingerprint w k) (certFingerprint w prev)
        else CertSerialCollision keyId (certFingerprint w prev) (certFingerprint w k);
      Ok tt
  | None =>
      match chain with
      | [] => Err (UntrustedCertificate (numSerialToKeyId (w_serial w first)))
      | c :: r =>
          check w_cert_signed_by w prev c
            else CertificateChainBroken keyId (numSerialToKeyId (w_serial w c));
          verifyCert_from w ks first c r
      end
  end.
Definition verifyCert (w : world) (c : cert) (chain : list cert) (ks : keystore) : result unit :=
  verifyCert_from w ks c c chain.

(** ** verifyGroup, librksv/verify.py:299-444 *)

(** The variables of the loop. The objects cashRegisterState and usedReceiptIds
    are modified in place; they are private copies, see
    [getCashRegisterInfo], so that an exception leaves nothing behind. *)
Record vstate : Type := VState {
  vs_prev : option str;
  vs_prevObj : option receipt;
  vs_reg : regstate;
  vs_used : used
}.

Definition set_restore (s : regstate) (b : bool) : regstate :=
  RegState (s_start s) (s_last s) (s_counter s) b (s_chain s).
Definition set_start (s : regstate) (jws : str) : regstate :=
  RegState (Some jws) (s_last s) (s_counter s) (s_restore s) (s_chain s).
Definition set_chain_none (s : regstate) : regstate :=
  RegState (s_start s) (s_last s) (s_counter s) (s_restore s) None.
Definition set_counter (s : regstate) (c : Z) : regstate :=
  RegState (s_start s) (s_last s) c (s_restore s) (s_chain s).
Definition set_last (s : regstate) (l : option str) : regstate :=
  RegState (s_start s) l (s_counter s) (s_restore s) (s_chain s).

Definition is_AT0 (r : receipt) : bool := str_eqb (r_zda r) (lit "AT0").

(** The exceptions caught, librksv/verify.py:363-366 *)
Definition nonfatal (e : exn) : bool :=
  match e with SignatureSystemFailed _ | UnsignedNullReceipt _ => true | _ => false end.

(** librksv/verify.py:350-377: signature and restore receipt. Returns the receipt
    and the new value of needRestoreReceipt. *)
Definition check_signature (w : world) (v : verifier) (prevObj : option receipt) (need : bool) (r : str)
  : result (receipt * bool) :=
  match verifyJWS w v r with
  | Ok (ro, _) =>
      match prevObj with
      | None => Ok (ro, false)
      | Some p =>
          do nt <- notable ro;
          if nt then
            check negb need else NoRestoreReceipt (r_receiptId ro);
            do b <- isSignedBroken p;
            Ok (ro, if b then true else need)
          else Ok (ro, false)
      end
  | Err e =>
      if nonfatal e then
        do rp <- fromJWSString w r;
        match prevObj with
        | None => Err (SignatureSystemFailedOnInitial (r_receiptId (fst rp)))
        | Some _ =>
            check negb need else NoRestoreReceipt (r_receiptId (fst rp));
            Ok (fst rp, need)
        end
      else Err e
  end.

(** librksv/verify.py:379-394: the first receipt of a register. Returns the new
    values of prev and prevObj. *)
Definition check_initial (w : world) (prevStart : option str) (prev : option str) (ro : receipt)
  : result (option str * option receipt) :=
  check isNull ro else NonzeroTurnoverOnInitial (r_receiptId ro);
  do ns <- orR (isDummy ro) (isReversal ro);
  check negb ns else NonstandardTypeOnInitial (r_receiptId ro);
  match truthy prevStart with
  | None => Ok (prev, None)
  | Some ps =>
      check is_AT0 ro else ClusterInOpenSystem;
      do pp <- fromJWSString w ps;
      check is_AT0 (fst pp) else ClusterInOpenSystem;
      Ok (Some ps, Some (fst pp))
  end.

(** librksv/verify.py:396-408: comparison with the preceding receipt *)
Definition check_previous (w : world) (prevObj : option receipt) (u : used) (ro : receipt) : result unit :=
  match prevObj with
  | None => Ok tt
  | Some p =>
      do _x <- used_check w u (r_receiptId ro);
      check str_eqb (r_registerId p) (r_registerId ro) else ChangingRegisterId (r_receiptId ro);
      check negb ((is_AT0 p && negb (is_AT0 ro)) || (negb (is_AT0 p) && is_AT0 ro))
        else ChangingSystemType (r_receiptId ro);
      check negb (dt_ltb (r_dateTime ro) (r_dateTime p)) else DecreasingDate (r_receiptId ro);
      Ok tt
  end.

(** librksv/verify.py:412-426: chaining. Returns the new value of chainNextTo. *)
Definition check_chain (w : world) (prevStart : option str) (reg : regstate) (prev : option str)
    (r : str) (ro : receipt) : result (option str) :=
  match (match truthy (s_chain reg) with
         | Some v => do _x <- verifyChainValue ro v; Ok None
         | None => do _x <- verifyChain w ro prev; Ok (s_chain reg)
         end) with
  | Err (ChainingError rec) =>
      if match s_start reg with Some s => str_eqb s r | None => false end then
        match truthy prevStart with
        | Some _ => Err (InvalidChainingOnClusterInitial rec)
        | None => Err (InvalidChainingOnInitial rec)
        end
      else Err (ChainingError rec)
  | x => x
  end.

(** librksv/verify.py:428-439: the turnover counter *)
Definition check_counter (w : world) (key : option bytes) (c : Z) (ro : receipt) : result Z :=
  do dm <- isDummy ro;
  if dm then Ok c
  else match key with
       | None => Ok c
       | Some k =>
           do _x <- raiseForKey k;
           do x <- cents ro;
           let newC := (c + x)%Z in
           do rv <- isReversal ro;
           if rv then Ok newC
           else
             do tc <- decryptTC w ro k;
             check (tc =? newC)%Z else InvalidTurnoverCounter (r_receiptId ro);
             Ok newC
       end.

(** One turn of the loop, librksv/verify.py:346-442 *)
Definition verify_step (w : world) (v : verifier) (key : option bytes) (prevStart : option str)
    (s : vstate) (cr : bytes) : result vstate :=
  do r <- expandDEPReceipt cr;
  do rn <- check_signature w v (vs_prevObj s) (s_restore (vs_reg s)) r;
  let ro := fst rn in
  let reg := set_restore (vs_reg s) (snd rn) in
  do ini <- match vs_prevObj s with
            | Some p => Ok (vs_prev s, Some p, reg)
            | None =>
                do pp <- check_initial w prevStart (vs_prev s) ro;
                Ok (fst pp, snd pp, set_start reg r)
            end;
  let prev := fst (fst ini) in
  let prevObj := snd (fst ini) in
  let reg := snd ini in
  do _x <- check_previous w prevObj (vs_used s) ro;
  let u := used_add (vs_used s) (r_receiptId ro) in
  do cn <- check_chain w prevStart reg prev r ro;
  let reg := RegState (s_start reg) (s_last reg) (s_counter reg) (s_restore reg) cn in
  do c <- check_counter w key (s_counter reg) ro;
  Ok (VState (Some r) (Some ro) (set_counter reg c) u).

Fixpoint verify_loop (w : world) (v : verifier) (key : option bytes) (prevStart : option str)
    (s : vstate) (group : list bytes) : result vstate :=
  match group with
  | [] => Ok s
  | cr :: r => do s' <- verify_step w v key prevStart s cr; verify_loop w v key prevStart s' r
  end.

Definition parse_last (w : world) (last : option str) : result (option receipt) :=
  match truthy last with
  | None => Ok None
  | Some p => do rp <- fromJWSString w p; Ok (Some (fst rp))
  end.

Definition verifyGroup (w : world) (group : list bytes) (v : verifier) (key : option bytes)
    (prevStart : option str) (reg : regstate) (u : used) : result (regstate * used) :=
  do po <- parse_last w (s_last reg);
  do s <- verify_loop w v key prevStart (VState (s_last reg) po reg u) group;
  Ok (set_last (vs_reg s) (vs_prev s), vs_used s).

(** librksv/verify.py:446-496 verifyGroupsWithVerifiers *)
Definition vgroup : Type := list bytes * verifier.
Fixpoint verifyGroupsWithVerifiers (w : world) (groups : list vgroup) (key : option bytes)
    (prevStart : option str) (reg : regstate) (u : used) : result (regstate * used) :=
  match groups with
  | [] => Ok (reg, u)
  | (recs, v) :: r =>
      do ru <- verifyGroup w recs v key prevStart reg u;
      verifyGroupsWithVerifiers w r key prevStart (fst ru) (snd ru)
  end.

(** ** verifyDEP, librksv/verify.py:680-759 *)

(** The loop over the groups; [one] is one_group. The parser is a generator:
    the groups it delivered are verified before its exception is raised. *)
Fixpoint dep_groups (w : world) (ks : keystore) (key : option bytes) (prevStart : option str)
    (groups : list dgroup) (one : option bool) (reg : regstate) (u : used)
  : result (option bool * regstate * used) :=
  match groups with
  | [] => Ok (one, reg, u)
  | g :: r =>
      check match one with Some true => false | _ => true end else NoCertificateGiven;
      do vo <- match g_cert g with
               | None =>
                   check match one with Some false => false | _ => true end else NoCertificateGiven;
                   Ok (fromKeyStore ks, true)
               | Some c =>
                   do _x <- verifyCert w c (g_chain g) ks;
                   Ok (fromCert c, false)
               end;
      do ru <- verifyGroup w (g_recs g) (fst vo) key prevStart reg u;
      dep_groups w ks key prevStart r (Some (snd vo)) (fst ru) (snd ru)
  end.

Fixpoint dep_chunks (w : world) (ks : keystore) (key : option bytes) (prevStart : option str)
    (chunks : list chunk) (one : option bool) (reg : regstate) (u : used)
  : result (option bool * regstate * used) :=
  match chunks with
  | [] => Ok (one, reg, u)
  | c :: r =>
      check negb (List.length c =? 0)%nat else PyException;
      do ru <- dep_groups w ks key prevStart c one reg u;
      dep_chunks w ks key prevStart r (fst (fst ru)) (snd (fst ru)) (snd ru)
  end.

(** End of a generator *)
Definition finished {A} (s : stream A) : result unit :=
  match snd s with None => Ok tt | Some e => Err e end.

(** The receipts of a DEP, from the registers' information to the new one. *)
Definition dep_body (w : world) (ks : keystore) (key : option bytes) (s : stream chunk)
    (info : option str * regstate * used) : result (regstate * used) :=
  let '(prevStart, reg, u) := info in
  do ru <- dep_chunks w ks key prevStart (fst s) None reg u;
  do _x <- finished s;
  Ok (snd (fst ru), snd ru).

(** What verifyDEP and verifyParsedDEP have in common, librksv/verify.py:631-641,
    677-678 and 725-730, 758-759: returns the state object after the call, and
    the exception, if any. *)
Definition with_register (c : cluster) (idx : option Z)
    (body : option str * regstate * used -> result (regstate * used)) : cluster * option exn :=
  let (c', info) := getCashRegisterInfo c idx in
  match (do i <- info; do ru <- body i; updateCashRegisterInfo c' idx (fst ru) (snd ru)) with
  | Ok c'' => (c'', None)
  | Err e => (c', Some e)
  end.

Definition verifyDEP (w : world) (dep : json) (ks : keystore) (key : option bytes) (c : cluster)
    (idx : option Z) : cluster * option exn :=
  with_register c idx (dep_body w ks key (parse_dict w 1 dep 0)).

(** ** Parallel verification, librksv/verify.py:506-678 *)

(** [l[i:i+n] for i in range(0, len(l), n)] for a positive [n]; the fuel bounds
    the number of pieces. *)
Fixpoint slices_fuel {A} (fuel n : nat) (l : list A) : list (list A) :=
  match fuel, l with
  | _, [] => []
  | O, _ => []
  | S f, _ => firstn n l :: slices_fuel f n (skipn n l)
  end.
Definition slices {A} (n : nat) (l : list A) : list (list A) := slices_fuel (List.length l) n l.

(** [groupby(sub, lambda x: x[1])]. Verifiers are compared by identity in the
    code; they carry a number for this purpose here. *)
Fixpoint group_by {A} (l : list (A * nat)) : list (list A * nat) :=
  match l with
  | [] => []
  | (a, v) :: r =>
      match group_by r with
      | (as_, v') :: gs => if (v =? v')%nat then (a :: as_, v') :: gs else ([a], v) :: (as_, v') :: gs
      | [] => [([a], v)]
      end
  end.

(** librksv/verify.py:506-537 balanceGroupsWithVerifiers for a positive number of
    processes. Without receipts the step of the range is zero. *)
Definition balanceGroupsWithVerifiers {A} (groups : list (list A * nat)) (nprocs : nat)
  : result (list (list (list A * nat))) :=
  let recs := flat_map (fun g => map (fun r => (r, snd g)) (fst g)) groups in
  let per := ceil_div (List.length recs) nprocs in
  check negb (per =? 0)%nat else PyValueError;
  Ok (map group_by (slices per recs)).

(** librksv/verify.py:539-557 packageChunkWithVerifiers *)
Definition package_group (w : world) (ks : keystore) (certless : bool) (g : dgroup) : result vgroup :=
  match g_cert g with
  | None => check certless else NoCertificateGiven; Ok (g_recs g, fromKeyStore ks)
  | Some c => do _x <- verifyCert w c (g_chain g) ks; Ok (g_recs g, fromCert c)
  end.
Definition packageChunkWithVerifiers (w : world) (ks : keystore) (c : chunk) : result (list vgroup) :=
  mapM (package_group w ks (List.length c =? 1)%nat) c.

(** librksv/verify.py:559-569 getChunksForProcs on a generator: the chunks
    already collected are lost when it raises an exception. *)
Fixpoint chunks_for_procs {A} (nprocs : nat) (chunks : list A) (ret : list A) (e : option exn)
  : stream (list A) :=
  match chunks with
  | [] =>
      match e with
      | Some x => s_raise x
      | None => match ret with [] => s_end | _ => s_cons ret s_end end
      end
  | c :: r =>
      let ret := ret ++ [c] in
      if (nprocs <=? List.length ret)%nat then s_cons ret (chunks_for_procs nprocs r [] e)
      else chunks_for_procs nprocs r ret e
  end.
Definition getChunksForProcs {A} (s : stream A) (nprocs : nat) : stream (list A) :=
  chunks_for_procs nprocs (fst s) [] (snd s).

(** librksv/verify.py:571-583: the predicted states at the start of each
    package. The state after the last one is computed, too. *)
Fixpoint predict_groups (w : world) (key : option bytes) (reg : regstate) (groups : list vgroup)
  : result regstate :=
  match groups with
  | [] => Ok reg
  | (recs, _) :: r => do reg' <- fromDEPGroup w reg recs key; predict_groups w key reg' r
  end.
Fixpoint predict (w : world) (key : option bytes) (reg : regstate) (pkgs : list (list vgroup))
  : result (list (list vgroup * regstate)) :=
  match pkgs with
  | [] => Ok []
  | p :: r =>
      do reg' <- predict_groups w key reg p;
      do rest <- predict w key reg' r;
      Ok ((p, reg) :: rest)
  end.

(** How the packages are run: librksv/verify.py:584-585 gives all packages of a
    batch one and the same object for the used IDs. Packages that run in the
    same process without being pickled separately therefore see each other's
    IDs. Without a pool these are all packages; a multiprocessing.Pool of P
    workers sends them in tasks of ceil(n / 4P) packages, pickled together.
    [run_task] is one task: every result refers to the object in its final
    state. *)
Fixpoint run_task (w : world) (key : option bytes) (prevStart : option str)
    (pkgs : list (list vgroup * regstate)) (u : used) : result (list regstate * used) :=
  match pkgs with
  | [] => Ok ([], u)
  | (p, reg) :: r =>
      do ru <- verifyGroupsWithVerifiers w p key prevStart reg u;
      do rest <- run_task w key prevStart r (snd ru);
      Ok (fst ru :: fst rest, snd rest)
  end.

(** The worker pool: no pool, or a number of workers. *)
Definition task_size (pool : option nat) (npkgs : nat) : nat :=
  match pool with
  | None => npkgs
  | Some workers => ceil_div npkgs (4 * workers)
  end.

(** The failing tasks of a batch report in any order: [pick] chooses among the
    exceptions, here as a function of their list. *)
Fixpoint partition_results {A} (l : list (result A)) : list A * list exn :=
  match l with
  | [] => ([], [])
  | Ok a :: r => (a :: fst (partition_results r), snd (partition_results r))
  | Err e :: r => (fst (partition_results r), e :: snd (partition_results r))
  end.

Record schedule : Type := Schedule {
  sch_pool : option nat;
  sch_nprocs : nat;
  sch_pick : list exn -> nat
}.

(** [res.get()]: the states and used IDs of all packages of a batch. *)
Definition run_batch (w : world) (sch : schedule) (key : option bytes) (prevStart : option str)
    (b : backend) (pkgs : list (list vgroup * regstate)) : result (list regstate * list used) :=
  let tasks := slices (task_size (sch_pool sch) (List.length pkgs)) pkgs in
  let results := map (fun t => run_task w key prevStart t (used_new b)) tasks in
  match partition_results results with
  | (oks, []) =>
      Ok (flat_map fst oks,
          flat_map (fun o => map (fun _ => snd o) (fst o)) oks)
  | (_, e :: es) => Err (nth (sch_pick sch (e :: es)) (e :: es) e)
  end.

(** Collecting a batch, librksv/verify.py:648-651 and 673-675 *)
Definition collect (w : world) (sch : schedule) (key : option bytes) (prevStart : option str) (b : backend)
    (pkgs : list (list vgroup * regstate)) (u : used) : result (regstate * used) :=
  do res <- run_batch w sch key prevStart b pkgs;
  do u' <- used_merge w u (snd res);
  match rev (fst res) with
  | [] => Err PyValueError   (* a batch is never empty *)
  | reg :: _ => Ok (reg, u')
  end.

(** The loop of librksv/verify.py:643-671. [pending] is the batch that is being
    worked on. *)
Fixpoint par_batches (w : world) (sch : schedule) (ks : keystore) (key : option bytes)
    (prevStart : option str) (b : backend) (batches : list (list chunk)) (e : option exn)
    (pending : option (list (list vgroup * regstate))) (reg : regstate) (u : used)
  : result (regstate * used) :=
  match batches with
  | [] =>
      match e with
      | Some x => Err x
      | None =>
          match pending with
          | None => Err PyAttributeError   (* None has no get() *)
          | Some pkgs => collect w sch key prevStart b pkgs u
          end
      end
  | chunks :: r =>
      do pkgs <- mapM (packageChunkWithVerifiers w ks) chunks;
      do ru <- match pending with
               | None => Ok (reg, u)
               | Some p => collect w sch key prevStart b p u
               end;
      do wargs <- predict w key (fst ru) pkgs;
      par_batches w sch ks key prevStart b r e (Some wargs) (fst ru) (snd ru)
  end.

Definition par_body (w : world) (sch : schedule) (ks : keystore) (key : option bytes) (s : stream chunk)
    (info : option str * regstate * used) : result (regstate * used) :=
  let '(prevStart, reg, u) := info in
  let bs := getChunksForProcs s (sch_nprocs sch) in
  par_batches w sch ks key prevStart (backend_of u) (fst bs) (snd bs) None reg u.

(** librksv/verify.py:587-678 verifyParsedDEP on the chunks of the parser *)
Definition verifyParsedDEP (w : world) (sch : schedule) (s : stream chunk) (ks : keystore)
    (key : option bytes) (c : cluster) (idx : option Z) : cluster * option exn :=
  with_register c idx (par_body w sch ks key s).
