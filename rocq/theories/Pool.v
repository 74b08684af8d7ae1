(** Worker processes: how work and results get from one process to another. *)
From Verif Require Import PyBase World Codec Receipt Json Pem KeyStore VerifyReceipt State DepBase DepParser Verify Cli.
Open Scope N_scope.
Open Scope py_scope.

(** ** Pickling *)

(** Exceptions are pickled as their class and _initargs (librksv/utils.py:47-54); to
    unpickle one means to call the class with these arguments. *)

(** How many arguments the constructor takes at least and at most:
    librksv/receipt.py:38-111, librksv/verify_receipt.py:35-96, librksv/verify.py:42-236,
    librksv/depparser.py:36-115, librksv/verification_state.py:38-122,
    librksv/utils.py:63-70. Classes that share a constructor of [exn] (those of states
    and key stores, which workers do not raise) are not distinguished. Python's own
    exceptions take any number. *)
Definition init_takes (e : exn) : nat * nat :=
  match e with
  | MalformedReceipt _ => (1, 2)
  | UnknownAlgorithm _ | AlgorithmMismatch _ | CertSerialInvalid _ | InvalidCertificateProvider _ => (1, 1)
  | CertSerialMismatch _ | NoPublicKey _ | InvalidSignature _ | SignatureSystemFailed _ | InvalidURLHash _ | UnsignedNullReceipt _ => (1, 1)
  | ClusterInOpenSystem | NoCertificateGiven => (0, 0)
  | ChainingError _ => (1, 2)
  | NoRestoreReceipt _ | InvalidTurnoverCounter _ | ChangingRegisterId _ | DecreasingDate _ | ChangingSystemType _ => (1, 1)
  | UntrustedCertificate _ => (1, 1)
  | CertificateChainBroken _ _ => (2, 2)
  | CertSerialCollision _ _ _ => (3, 3)
  | SignatureSystemFailedOnInitial _ | NonzeroTurnoverOnInitial _ | InvalidChainingOnInitial _
  | InvalidChainingOnClusterInitial _ | NonstandardTypeOnInitial _ => (1, 1)
  | DEPParseError | MalformedDEPCertificate => (1, 1)
  | MalformedDEP => (0, 2)
  | MissingDEPElement | DuplicateDEPElement => (1, 2)
  | MalformedDEPElement => (1, 3)
  | DuplicateReceiptId _ | InvalidCashRegisterIndex => (1, 1)
  | NoStartReceiptForLastCashRegister => (0, 0)
  | InvalidKey => (0, 0)
  | _ => (0, 100)
  end%nat.

(** The number of _initargs, at the same places. InvalidKeyException does not set them: it
    has those of RKSVException (librksv/utils.py:51, 69-70). *)
Definition init_args (e : exn) : nat :=
  match e with
  | MalformedReceipt _ => 2
  | UnknownAlgorithm _ | AlgorithmMismatch _ | CertSerialInvalid _ | InvalidCertificateProvider _ => 1
  | CertSerialMismatch _ | NoPublicKey _ | InvalidSignature _ | SignatureSystemFailed _ | InvalidURLHash _ | UnsignedNullReceipt _ => 1
  | ClusterInOpenSystem | NoCertificateGiven => 0
  | ChainingError _ => 2
  | NoRestoreReceipt _ | InvalidTurnoverCounter _ | ChangingRegisterId _ | DecreasingDate _ | ChangingSystemType _ => 1
  | UntrustedCertificate _ => 1
  | CertificateChainBroken _ _ => 2
  | CertSerialCollision _ _ _ => 3
  | SignatureSystemFailedOnInitial _ | NonzeroTurnoverOnInitial _ | InvalidChainingOnInitial _
  | InvalidChainingOnClusterInitial _ | NonstandardTypeOnInitial _ => 1
  | DEPParseError | MalformedDEPCertificate => 1
  | MalformedDEP => 2
  | MissingDEPElement | DuplicateDEPElement => 2
  | MalformedDEPElement => 3
  | DuplicateReceiptId _ | InvalidCashRegisterIndex => 1
  | NoStartReceiptForLastCashRegister => 0
  | InvalidKey => 1
  | _ => 1
  end%nat.

Definition unpickles (e : exn) : bool :=
  ((fst (init_takes e) <=? init_args e) && (init_args e <=? snd (init_takes e)))%nat.

(** librksv/utils.py:369-388: certificates and public keys travel as PEM texts without the
    first and last line. *)
Definition send_cert (w : world) (c : cert) : result cert := loadCert w (addPEMCertHeaders (exportCertToPEM w c)).
Definition send_key (w : world) (k : pubkey) : result pubkey := loadPubKey w (addPEMPubKeyHeaders (exportKeyToPEM w k)).
Definition send_opt {A} (f : A -> result A) (o : option A) : result (option A) :=
  match o with
  | None => Ok None
  | Some a => do b <- f a; Ok (Some b)
  end.
Definition send_tuple (w : world) (kt : key_tuple) : result key_tuple :=
  do k <- send_key w (kt_key kt); do c <- send_opt (send_cert w) (kt_cert kt); Ok (KeyTuple k c).
Definition send_store (w : world) (ks : keystore) : result keystore :=
  mapM (fun e : str * key_tuple => do kt <- send_tuple w (snd e); Ok (fst e, kt)) ks.
Definition send_verifier (w : world) (v : verifier) : result verifier :=
  do ks <- send_opt (send_store w) (v_store v); do c <- send_opt (send_cert w) (v_cert v); Ok (Verifier ks c).

(** A task: packages with their states, which consist of texts and numbers *)
Definition send_task (w : world) (t : list (list vgroup * regstate)) : result (list (list vgroup * regstate)) :=
  mapM (fun a : list vgroup * regstate =>
          do gs <- mapM (fun g : vgroup => do v <- send_verifier w (snd g); Ok (fst g, v)) (fst a); Ok (gs, snd a)) t.

(** ** Pools *)

(** [res.get()] for a multiprocessing.Pool of Python 3; [None] if it never returns. A
    worker that cannot unpickle its task ends, and nobody reports a result for it. If a
    result cannot be unpickled, the thread that handles results ends. In both cases the
    number of missing results never gets zero. Otherwise it is the value of
    [run_batch]. *)
Definition task_results (w : world) (sch : schedule) (key : option bytes) (prevStart : option str) (b : backend)
    (pkgs : list (list vgroup * regstate)) : list (option (result (list regstate * used))) :=
  map (fun t => match send_task w t with
                | Ok t' => match run_task w key prevStart t' (used_new b) with
                           | Err e => if unpickles e then Some (Err e) else None
                           | Ok x => Some (Ok x)
                           end
                | Err _ => None
                end)
      (slices (task_size (sch_pool sch) (List.length pkgs)) pkgs).

Fixpoint all_some {A} (l : list (option A)) : option (list A) :=
  match l with
  | [] => Some []
  | None :: _ => None
  | Some a :: r => option_map (cons a) (all_some r)
  end.

Definition pool_batch (w : world) (sch : schedule) (key : option bytes) (prevStart : option str) (b : backend)
    (pkgs : list (list vgroup * regstate)) : option (result (list regstate * list used)) :=
  match sch_pool sch with
  | None => Some (run_batch w sch key prevStart b pkgs)
  | Some _ =>
      match all_some (task_results w sch key prevStart b pkgs) with
      | None => None
      | Some results =>
          Some match partition_results results with
               | (oks, []) => Ok (flat_map fst oks, flat_map (fun o => map (fun _ => snd o) (fst o)) oks)
               | (_, e :: es) => Err (nth (sch_pick sch (e :: es)) (e :: es) e)
               end
      end
  end.

(** librksv/verify.py:648-651 and 673-675, see [collect] *)
Definition pool_collect (w : world) (sch : schedule) (key : option bytes) (prevStart : option str) (b : backend)
    (pkgs : list (list vgroup * regstate)) (u : used) : option (result (regstate * used)) :=
  match pool_batch w sch key prevStart b pkgs with
  | None => None
  | Some r =>
      Some (do res <- r;
            do u' <- used_merge w u (snd res);
            match rev (fst res) with
            | [] => Err PyValueError
            | reg :: _ => Ok (reg, u')
            end)
  end.

(** librksv/verify.py:643-675, see [par_batches] *)
Fixpoint pool_batches (w : world) (sch : schedule) (ks : keystore) (key : option bytes)
    (prevStart : option str) (b : backend) (batches : list (list chunk)) (e : option exn)
    (pending : option (list (list vgroup * regstate))) (reg : regstate) (u : used)
  : option (result (regstate * used)) :=
  match batches with
  | [] =>
      match e with
      | Some x => Some (Err x)
      | None =>
          match pending with
          | None => Some (Err PyAttributeError)
          | Some pkgs => pool_collect w sch key prevStart b pkgs u
          end
      end
  | chunks :: r =>
      match mapM (packageChunkWithVerifiers w ks) chunks with
      | Err x => Some (Err x)
      | Ok pkgs =>
          match match pending with
                | None => Some (Ok (reg, u))
                | Some p => pool_collect w sch key prevStart b p u
                end with
          | None => None
          | Some (Err x) => Some (Err x)
          | Some (Ok ru) =>
              match predict w key (fst ru) pkgs with
              | Err x => Some (Err x)
              | Ok wargs => pool_batches w sch ks key prevStart b r e (Some wargs) (fst ru) (snd ru)
              end
          end
      end
  end.

(** librksv/verify.py:587-678, see [verifyParsedDEP] and [with_register]. [None]: it never
    returns. *)
Definition verifyWithPool (w : world) (sch : schedule) (s : stream chunk) (ks : keystore)
    (key : option bytes) (c : cluster) (idx : option Z) : option (cluster * option exn) :=
  match getCashRegisterInfo c idx with
  | (c1, Err e) => Some (c1, Some e)
  | (c1, Ok info) =>
      let '(prevStart, reg, u) := info in
      let bs := getChunksForProcs s (sch_nprocs sch) in
      match pool_batches w sch ks key prevStart (backend_of u) (fst bs) (snd bs) None reg u with
      | None => None
      | Some r => Some (with_register c idx (fun _ => r))
      end
  end.

(** verify.py:126-150, see [verify_mode] *)
Definition pool_mode (w : world) (pick : list exn -> nat) (a : verify_args) (dep : json)
    (ks : keystore) (key : option bytes) (c : cluster) (idx : option Z) : option (cluster * option exn) :=
  if (1 <? va_par a)%nat then
    verifyWithPool w (Schedule (Some (va_par a)) (va_par a) pick)
      (if (va_chunksize a =? 0)%nat then parse_dict w (va_par a) (load dep) (va_chunksize a)
       else parse_inc w P_file dep (va_chunksize a)) ks key c idx
  else Some (verify_mode w pick a dep ks key c idx).

(** verify.py:112-154, see [verify_py]; [None]: the program does not end. *)
Definition verify_py_pool (w : world) (b : backend) (pick : list exn -> nat) (a : verify_args)
    (store stdin dep : json) : option (result (option json)) :=
  match (do key <- loadKeyFromJson (load store);
         do ks <- readStoreFromJson w (load store);
         do c <- read_state b a stdin; Ok (key, ks, c)) with
  | Err e => Some (Err e)
  | Ok (key, ks, c) =>
      match pool_mode w pick a dep ks key c (register_index a c) with
      | None => None
      | Some (_, Some e) => Some (Err e)
      | Some (c', None) => Some (Ok (if va_state a then Some (cluster_to_json c') else None))
      end
  end.
