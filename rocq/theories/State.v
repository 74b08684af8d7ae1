(** librksv/verification_state.py *)
From Verif Require Import PyBase World Codec PyFloat PyTime Algo Receipt DepBase Json.
Open Scope N_scope.
Open Scope py_scope.

(** ** Used receipt IDs, librksv/verification_state.py:124-299 *)

(** The key by which natural order compares IDs, 229-232: pieces of the text
    between runs of ASCII digits, and the numbers. *)
Inductive nat_piece := PInt (z : Z) | PStr (s : str).

(** [re.split('([0-9]+)', s)]: [cur] is the current piece in reverse, [num]
    tells whether it is a run of digits. *)
Fixpoint split_num (s : str) (cur : str) (num : bool) : list str :=
  match s with
  | [] => if num then [rev cur; []] else [rev cur]
  | c :: r =>
      if is_09 c then
        if num then split_num r (c :: cur) true else rev cur :: split_num r [c] true
      else
        if num then rev cur :: split_num r [c] false else split_num r (c :: cur) false
  end.
Definition num_split (s : str) : list str := split_num s [] false.

(** [int(text) if text.isdigit() else text.lower()] *)
Definition convert_piece (w : world) (t : str) : result nat_piece :=
  if isdigit w t then
    match py_int w 10 t with Some z => Ok (PInt z) | None => Err PyValueError end
  else Ok (PStr (lower w t)).

Definition nat_key (w : world) (recId : str) : result (list nat_piece) :=
  mapM (convert_piece w) (num_split recId).

(** [a < b] on lists: the first difference decides; a number and a text cannot
    be compared. *)
Fixpoint key_lt (a b : list nat_piece) : result bool :=
  match a, b with
  | _, [] => Ok false
  | [], _ :: _ => Ok true
  | x :: a', y :: b' =>
      match x, y with
      | PInt i, PInt j => if (i =? j)%Z then key_lt a' b' else Ok (i <? j)%Z
      | PStr s, PStr t => if str_eqb s t then key_lt a' b' else Ok (lex_ltb s t)
      | _, _ => Err PyTypeError
      end
  end.

(** The two backends. The set of UsedReceiptIdsUnique is a list without
    repetition in order of insertion; Python iterates over it in some order,
    which decides only which duplicate [merge] reports. *)
Inductive used : Type :=
| Unique (ids : list str)
| Natural (minId maxId : option str).

Inductive backend := B_unique | B_natural.
Definition backend_of (u : used) : backend :=
  match u with Unique _ => B_unique | Natural _ _ => B_natural end.
Definition used_new (b : backend) : used :=
  match b with B_unique => Unique [] | B_natural => Natural None None end.

Definition mem (s : str) (l : list str) : bool := existsb (str_eqb s) l.

(** librksv/verification_state.py:188-190 and 238-243 check *)
Definition used_check (w : world) (u : used) (recId : str) : result unit :=
  match u with
  | Unique ids => check negb (mem recId ids) else DuplicateReceiptId recId; Ok tt
  | Natural _ None => Ok tt
  | Natural _ (Some m) =>
      do a <- nat_key w m;
      do b <- nat_key w recId;
      do lt <- key_lt a b;
      check lt else DuplicateReceiptId recId;
      Ok tt
  end.

(** librksv/verification_state.py:192-193 and 245-248 add *)
Definition used_add (u : used) (recId : str) : used :=
  match u with
  | Unique ids => if mem recId ids then u else Unique (ids ++ [recId])
  | Natural mi _ => Natural (match mi with None => Some recId | _ => mi end) (Some recId)
  end.

Fixpoint used_merge_ids (w : world) (u : used) (ids : list str) : result used :=
  match ids with
  | [] => Ok u
  | i :: r => do _x <- used_check w u i; used_merge_ids w (used_add u i) r
  end.

(** One turn of the loops of librksv/verification_state.py:195-199 and 250-261
    merge. All objects are of the same class in the code; merging different
    ones looks for an attribute that does not exist. *)
Definition used_merge1 (w : world) (u v : used) : result used :=
  match u, v with
  | Unique _, Unique ids => used_merge_ids w u ids
  | Natural _ _, Natural (Some mi) (Some ma) =>
      do _x <- used_check w u mi;
      Ok (used_add (used_add u mi) ma)
  | Natural _ _, Natural _ _ => Ok u
  | _, _ => Err PyAttributeError
  end.
Fixpoint used_merge (w : world) (u : used) (l : list used) : result used :=
  match l with
  | [] => Ok u
  | v :: r => do u' <- used_merge1 w u v; used_merge w u' r
  end.

Definition k_btype : str := lit "backendType".
Definition k_bdata : str := lit "backendData".
Definition k_unique : str := lit "USED_RECEIPT_IDS_UNIQUE".
Definition k_natural : str := lit "USED_RECEIPT_IDS_SORTED_NATURAL".
Definition k_min : str := lit "minId".
Definition k_max : str := lit "maxId".

Definition jopt (o : option str) : json := match o with None => JNull | Some s => JStr s end.

(** librksv/verification_state.py:176-180, 216-217 and 291-295 writeToJson *)
Definition used_to_json (u : used) : json :=
  match u with
  | Unique ids => JDict [(k_btype, JStr k_unique); (k_bdata, JList (map JStr ids))]
  | Natural mi ma => JDict [(k_btype, JStr k_natural);
                            (k_bdata, JDict [(k_min, jopt mi); (k_max, jopt ma)])]
  end.

(** [isinstance(x, str)] for all elements, and the texts *)
Fixpoint texts (l : list json) : result (list str) :=
  match l with
  | [] => Ok []
  | JStr s :: r => do t <- texts r; Ok (s :: t)
  | _ :: _ => Err StateParseError
  end.

(** [x is None or isinstance(x, str)] *)
Definition opt_text (j : json) : result (option str) :=
  match j with
  | JNull => Ok None
  | JStr s => Ok (Some s)
  | _ => Err StateParseError
  end.

(** [set(data)] *)
Definition set_of (l : list str) : used := fold_left used_add l (Unique []).

(** librksv/verification_state.py:201-214 and 263-289 _dataImport, 154-174
    readFromJson. All exceptions about the contents are one class here. *)
Definition used_of_json (j : json) : result used :=
  match j with
  | JDict d =>
      match dict_get d k_btype, dict_get d k_bdata with
      | Some (JStr ty), Some data =>
          if str_eqb ty k_unique then
            match data with
            | JList l => do ids <- texts l; Ok (set_of ids)
            | _ => Err StateParseError
            end
          else if str_eqb ty k_natural then
            match data with
            | JDict e =>
                match dict_get e k_min, dict_get e k_max with
                | Some jmi, Some jma =>
                    do mi <- opt_text jmi; do ma <- opt_text jma; Ok (Natural mi ma)
                | _, _ => Err StateParseError
                end
            | _ => Err StateParseError
            end
          else Err StateParseError
      | _, _ => Err StateParseError
      end
  | _ => Err StateParseError
  end.

(** ** The state of a register, librksv/verification_state.py:304-422 *)
Record regstate : Type := RegState {
  s_start : option str;
  s_last : option str;
  s_counter : Z;
  s_restore : bool;
  s_chain : option str
}.

(** librksv/verification_state.py:310-315 *)
Definition new_register : regstate := RegState None None 0 false None.

Definition k_start : str := lit "startReceiptJWS".
Definition k_last : str := lit "lastReceiptJWS".
Definition k_counter : str := lit "lastTurnoverCounter".
Definition k_restore : str := lit "needRestoreReceipt".
Definition k_chain : str := lit "chainNextTo".

(** librksv/verification_state.py:317-360 fromDict. [bool] is a subclass of
    [int]; a truth value as counter counts as 0 or 1. *)
Definition regstate_of_dict (d : list (str * json)) : result regstate :=
  match dict_get d k_start, dict_get d k_last, dict_get d k_counter,
        dict_get d k_restore, dict_get d k_chain with
  | Some js, Some jl, Some jc, Some jr, Some jn =>
      do s <- opt_text js;
      do l <- opt_text jl;
      do c <- match jc with
              | JInt z => Ok z
              | JBool b => Ok (if b then 1 else 0)%Z
              | _ => Err StateParseError
              end;
      do r <- match jr with JBool b => Ok b | _ => Err StateParseError end;
      do n <- opt_text jn;
      Ok (RegState s l c r n)
  | _, _, _, _, _ => Err StateParseError
  end.

(** [cr.__dict__], librksv/verification_state.py:562-566 *)
Definition regstate_to_dict (r : regstate) : list (str * json) :=
  [(k_start, jopt (s_start r)); (k_last, jopt (s_last r)); (k_counter, JInt (s_counter r));
   (k_restore, JBool (s_restore r)); (k_chain, jopt (s_chain r))].

(** The amount of a receipt in cents as the code computes it in three places,
    [int(round((sumA + sumB + sumC + sumD + sumE) * 100))]:
    librksv/verify.py:432-433, librksv/verification_state.py:411-412, 451-452 *)
Definition cents (r : receipt) : result Z :=
  py_round (fmul (fadd (fadd (fadd (fadd (r_sumA r) (r_sumB r)) (r_sumC r)) (r_sumD r)) (r_sumE r)) f100).

(** [x and y] on results *)
Definition andR (a b : result bool) : result bool := do x <- a; if x then b else Ok false.
Definition orR (a b : result bool) : result bool := do x <- a; if x then Ok true else b.
Definition notR (a : result bool) : result bool := do x <- a; Ok (negb x).

(** [not r.isNull() or r.isDummy() or r.isReversal()] *)
Definition notable (r : receipt) : result bool :=
  orR (orR (Ok (negb (isNull r))) (isDummy r)) (isReversal r).

(** The loop over the group from its end, librksv/verification_state.py:396-406:
    the counter of the last standard receipt, if any, and the cancellations
    after it (first to last). [rg] is the group in reverse. *)
Fixpoint last_counter (w : world) (key : bytes) (rg : list bytes) (revs : list receipt)
  : result (option Z * list receipt) :=
  match rg with
  | [] => Ok (None, revs)
  | b :: r =>
      do s <- expandDEPReceipt b;
      do rp <- fromJWSString w s;
      let ro := fst rp in
      do std <- andR (notR (isDummy ro)) (notR (isReversal ro));
      if std then
        do c <- decryptTC w ro key;
        Ok (Some c, revs)
      else
        do rv <- isReversal ro;
        last_counter w key r (if rv then ro :: revs else revs)
  end.

(** librksv/verification_state.py:408-410 *)
Fixpoint add_cents (c : Z) (l : list receipt) : result Z :=
  match l with
  | [] => Ok c
  | r :: t => do x <- cents r; add_cents (c + x)%Z t
  end.

(** librksv/verification_state.py:368-412 updateFromDEPGroup. The key is
    optional and the empty one counts as missing. *)
Definition updateFromDEPGroup (w : world) (st : regstate) (group : list bytes) (key : option bytes)
  : result regstate :=
  match rev group with
  | [] => Ok st
  | lastb :: rest =>
      do stlj <- match rest with
                 | [] => Ok (s_last st)
                 | b :: _ => do s <- expandDEPReceipt b; Ok (Some s)
                 end;
      do stl <- match truthy stlj with
                | None => Ok None
                | Some s => do rp <- fromJWSString w s; Ok (Some (fst rp))
                end;
      do lasts <- expandDEPReceipt lastb;
      do lp <- fromJWSString w lasts;
      let last := fst lp in
      do need <- andR (andR (notR (isSignedBroken last))
                        (match stl with None => Ok false | Some _ => notable last end))
                   (match stl with None => Ok false | Some s => isSignedBroken s end);
      do start <- match truthy (s_start st) with
                  | Some _ => Ok (s_start st)
                  | None => do s <- expandDEPReceipt (hd lastb group); Ok (Some s)
                  end;
      do c <- match truthy key with
              | None => Ok (s_counter st)
              | Some k =>
                  do cr <- last_counter w k (rev group) [];
                  add_cents (match fst cr with Some c => c | None => s_counter st end) (snd cr)
              end;
      Ok (RegState start (Some lasts) c need None)
  end.

(** librksv/verification_state.py:362-366 fromDEPGroup *)
Definition fromDEPGroup := updateFromDEPGroup.

(** ** Clusters, librksv/verification_state.py:424-570 *)
Record cluster : Type := Cluster { c_regs : list regstate; c_used : used }.

(** librksv/verification_state.py:471-482 addNewCashRegister *)
Definition addNewCashRegister (c : cluster) : result cluster :=
  match rev (c_regs c) with
  | r :: _ =>
      match truthy (s_start r) with
      | None => Err NoStartReceiptForLastCashRegister
      | Some _ => Ok (Cluster (c_regs c ++ [new_register]) (c_used c))
      end
  | [] => Ok (Cluster [new_register] (c_used c))
  end.

(** librksv/verification_state.py:431-439 __init__ *)
Definition new_cluster (b : backend) : cluster := Cluster [] (used_new b).
Definition init_cluster (b : backend) (initChainNextTo initReceiptJWS : option str) : cluster :=
  match truthy initReceiptJWS, truthy initChainNextTo with
  | None, None => new_cluster b
  | _, _ => Cluster [RegState None initReceiptJWS 0 false initChainNextTo] (used_new b)
  end.

Definition dummy000 : str := lit "DUMMY000".

(** librksv/verification_state.py:441-463 fromArbitraryReceipt. The empty key
    counts as missing. *)
Definition fromArbitraryReceipt (w : world) (r : receipt) (prefix : str) (key : option bytes) (b : backend)
  : result cluster :=
  check known_alg prefix else UnknownAlgorithm (r_receiptId r);
  do tc <- match truthy key with
           | None => Ok 0%Z
           | Some k =>
               do std <- andR (notR (isDummy r)) (notR (isReversal r));
               if std then
                 do cur <- decryptTC w r k;
                 do x <- cents r;
                 Ok (cur - x)%Z
               else Ok 0%Z
           end;
  do d <- mk_receipt w (r_zda r) (r_registerId r) (lit "dummyrec") (r_dateTimeStr r)
            (lit "0,00") (lit "0,00") (lit "0,00") (lit "0,00") (lit "0,00")
            dummy000 (r_certSerial r) (b64encode dummy000);
  do d <- sign_receipt d r1_jwsHeader dummy000;
  do jws <- toJWSString d prefix;
  let c := init_cluster b (Some (r_previousChain r)) (Some jws) in
  Ok (Cluster (map (fun s => RegState (s_start s) (s_last s) tc (s_restore s) (s_chain s)) (c_regs c))
        (c_used c)).

(** librksv/verification_state.py:465-469 fromArbitraryStartReceipt *)
Definition fromArbitraryStartReceipt (r : receipt) (b : backend) : cluster :=
  init_cluster b (Some (r_previousChain r)) None.

(** librksv/verification_state.py:484-509 getCashRegisterInfo. Returns the state
    object after the call, as the method may append to it. *)
Definition getCashRegisterInfo (c : cluster) (idx : option Z)
  : cluster * result (option str * regstate * used) :=
  let n := Z.of_nat (List.length (c_regs c)) in
  let new := match idx with None => true | Some i => (i =? n)%Z end in
  let i := if new then n else match idx with None => n | Some i => i end in
  match (if new then addNewCashRegister c else Ok c) with
  | Err e => (c, Err e)
  | Ok c' =>
      let n' := Z.of_nat (List.length (c_regs c')) in
      if ((i <? 0) || (n' <? i))%Z then (c', Err InvalidCashRegisterIndex)
      else
        match nth_error (c_regs c') (Z.to_nat i) with
        | None => (c', Err PyIndexError)
        | Some r =>
            let prev := if (0 <? i)%Z
                        then match nth_error (c_regs c') (Z.to_nat (i - 1)) with
                             | Some p => s_start p
                             | None => None
                             end
                        else None in
            (c', Ok (prev, r, c_used c'))
        end
  end.

Fixpoint set_nth {A} (n : nat) (x : A) (l : list A) : list A :=
  match n, l with
  | _, [] => []
  | O, _ :: r => x :: r
  | S m, y :: r => y :: set_nth m x r
  end.

(** librksv/verification_state.py:511-529 updateCashRegisterInfo. With no
    register at all the last one cannot be updated. *)
Definition updateCashRegisterInfo (c : cluster) (idx : option Z) (r : regstate) (u : used) : result cluster :=
  let n := Z.of_nat (List.length (c_regs c)) in
  let i := match idx with None => (n - 1)%Z | Some i => i end in
  check match idx with None => true | Some i => (0 <=? i)%Z && (i <? n)%Z end else InvalidCashRegisterIndex;
  check (0 <=? i)%Z else PyIndexError;
  Ok (Cluster (set_nth (Z.to_nat i) r (c_regs c)) u).

Definition k_regs : str := lit "cashRegisters".
Definition k_used : str := lit "usedReceiptIds".

(** librksv/verification_state.py:562-570 writeStateToJson *)
Definition cluster_to_json (c : cluster) : json :=
  JDict [(k_regs, JList (map (fun r => JDict (regstate_to_dict r)) (c_regs c)));
         (k_used, used_to_json (c_used c))].

(** librksv/verification_state.py:531-560 readStateFromJson *)
Definition cluster_of_json (j : json) : result cluster :=
  match j with
  | JDict d =>
      match dict_get d k_regs, dict_get d k_used with
      | Some (JList l), Some ju =>
          do regs <- mapM (fun x => match x with JDict e => regstate_of_dict e | _ => Err StateParseError end) l;
          do u <- used_of_json ju;
          Ok (Cluster regs u)
      | _, _ => Err StateParseError
      end
  | _ => Err StateParseError
  end.
