(** What the exceptions of verification say: for each exception the rule that is
    violated, by which receipt or certificate. Independent of the order in which
    the verifier looks at the rules. *)
From Verif Require Import PyBase World Codec PyTime Algo Receipt KeyStore VerifyReceipt State Verify
  SpecReceipt ReceiptFacts SpecReading SpecDep SpecCluster.
Open Scope N_scope.

(** ** Receipts *)

(** [reg], [u] and [p] are the register, the used IDs and the last receipt before
    the receipt [i]. *)

(** A backend that keeps the set of IDs has this one; or this ID is not larger than
    the largest one of a backend that expects increasing IDs. *)
Definition id_taken (w : world) (u : used) (id : str) : Prop :=
  match u with
  | Unique l => In id l
  | Natural _ None => False
  | Natural _ (Some m) =>
      exists ka kb, nat_key w m = Ok ka /\ nat_key w id = Ok kb /\ key_lt ka kb = Ok false
  end.
(** IDs that have no order, see C42 *)
Definition id_unordered (w : world) (u : used) (id : str) : Prop :=
  exists mi m, u = Natural mi (Some m)
    /\ forall ka kb b, nat_key w m = Ok ka -> nat_key w id = Ok kb -> key_lt ka kb <> Ok b.

(** The receipt continues the chain. *)
Definition chain_holds (w : world) (reg : regstate) (q : option past) (i : item) : Prop :=
  match truthy (s_chain reg) with
  | Some v => r_previousChain (i_rec i) = v
  | None => chained w (q, i)
  end.

(** It is the start receipt of the register, or has the same text. *)
Definition starts (reg : regstate) (p : option past) (i : item) : Prop :=
  p = None \/ s_start reg = Some (i_jws i).

Inductive fault (w : world) (key : option bytes) (prevStart : option str) (reg : regstate) (u : used)
    (p : option past) (i : item) : exn -> Prop :=
(* signature *)
| f_serial : ~ cert_fits w (i_ver i) (i_rec i) ->
    fault w key prevStart reg u p i (CertSerialMismatch (r_receiptId (i_rec i)))
| f_no_key : ~ unsigned (i_rec i) -> (forall k, ~ key_of w (i_ver i) (i_rec i) k) ->
    fault w key prevStart reg u p i (NoPublicKey (r_receiptId (i_rec i)))
| f_signature k : ~ unsigned (i_rec i) -> key_of w (i_ver i) (i_rec i) k -> ~ signed_by w k (i_rec i) ->
    fault w key prevStart reg u p i (InvalidSignature (r_receiptId (i_rec i)))
(* outage *)
| f_restore : p <> None -> s_restore reg = true -> ~ plain_zero (i_rec i) ->
    fault w key prevStart reg u p i (NoRestoreReceipt (r_receiptId (i_rec i)))
(* start receipt *)
| f_start_unsigned : p = None -> unsigned (i_rec i) ->
    fault w key prevStart reg u p i (SignatureSystemFailedOnInitial (r_receiptId (i_rec i)))
| f_start_turnover : p = None -> ~ zero (i_rec i) ->
    fault w key prevStart reg u p i (NonzeroTurnoverOnInitial (r_receiptId (i_rec i)))
| f_start_type : p = None -> ~ standard (i_rec i) ->
    fault w key prevStart reg u p i (NonstandardTypeOnInitial (r_receiptId (i_rec i)))
| f_start_open s : p = None -> prevStart = Some s -> s <> [] ->
    (~ closed (i_rec i) \/ exists q, reads w s q /\ ~ closed q) ->
    fault w key prevStart reg u p i ClusterInOpenSystem
(* comparison with the preceding receipt *)
| f_id q : effective_past w prevStart p (Some q) -> id_taken w u (r_receiptId (i_rec i)) ->
    fault w key prevStart reg u p i (DuplicateReceiptId (r_receiptId (i_rec i)))
| f_order q e : effective_past w prevStart p (Some q) -> id_unordered w u (r_receiptId (i_rec i)) ->
    e = PyTypeError \/ e = PyValueError ->
    fault w key prevStart reg u p i e
| f_register s q : effective_past w prevStart p (Some (s, q)) -> r_registerId (i_rec i) <> r_registerId q ->
    fault w key prevStart reg u p i (ChangingRegisterId (r_receiptId (i_rec i)))
| f_system s q : effective_past w prevStart p (Some (s, q)) -> ~ (closed (i_rec i) <-> closed q) ->
    fault w key prevStart reg u p i (ChangingSystemType (r_receiptId (i_rec i)))
| f_date s q : effective_past w prevStart p (Some (s, q)) -> ~ not_before (r_dateTime (i_rec i)) (r_dateTime q) ->
    fault w key prevStart reg u p i (DecreasingDate (r_receiptId (i_rec i)))
(* chaining *)
| f_chain q : effective_past w prevStart p q -> ~ chain_holds w reg q i -> ~ starts reg p i ->
    fault w key prevStart reg u p i (ChainingError (r_receiptId (i_rec i)))
| f_chain_start q : effective_past w prevStart p q -> ~ chain_holds w reg q i -> starts reg p i ->
    absent prevStart ->
    fault w key prevStart reg u p i (InvalidChainingOnInitial (r_receiptId (i_rec i)))
| f_chain_cluster q : effective_past w prevStart p q -> ~ chain_holds w reg q i -> starts reg p i ->
    ~ absent prevStart ->
    fault w key prevStart reg u p i (InvalidChainingOnClusterInitial (r_receiptId (i_rec i)))
(* turnover counter *)
| f_key k : key = Some k -> ~ training (i_rec i) -> List.length k <> 32%nat ->
    fault w key prevStart reg u p i InvalidKey
| f_amount e : key <> None -> ~ training (i_rec i) -> (forall z, cents (i_rec i) <> Ok z) ->
    e = PyOverflowError \/ e = PyValueError ->
    fault w key prevStart reg u p i e
| f_counter k z z' : key = Some k -> standard (i_rec i) -> cents (i_rec i) = Ok z ->
    decrypts w k (i_rec i) z' -> z' <> (s_counter reg + z)%Z ->
    fault w key prevStart reg u p i (InvalidTurnoverCounter (r_receiptId (i_rec i))).

(** The start receipt of the preceding register, as recorded *)
Definition start_readable (w : world) (prevStart : option str) : Prop := exists q, cluster_past w prevStart q.

(** ** Certificates *)

Definition key_id (w : world) (c : cert) : str := fmt_x (Z.abs (w_serial w c)).
Definition none_stored (w : world) (ks : keystore) (l : list cert) : Prop :=
  forall x k, In x l -> ~ stored w ks x k.

Inductive cert_fault (w : world) (ks : keystore) (c : cert) (chain : list cert) : exn -> Prop :=
| cf_untrusted : none_stored w ks (c :: chain) -> signed_in_turn w (c :: chain) ->
    cert_fault w ks c chain (UntrustedCertificate (key_id w c))
| cf_broken l1 a b l2 : c :: chain = l1 ++ a :: b :: l2 -> none_stored w ks (l1 ++ [a]) ->
    signed_in_turn w (l1 ++ [a]) -> w_cert_signed_by w a b <> true ->
    cert_fault w ks c chain (CertificateChainBroken (key_id w a) (key_id w b))
| cf_collision l1 a l2 k : c :: chain = l1 ++ a :: l2 -> none_stored w ks l1 ->
    signed_in_turn w (l1 ++ [a]) -> stored w ks a k -> ~ same_fingerprint w k a ->
    cert_fault w ks c chain (CertSerialCollision (key_id w a) (certFingerprint w a) (certFingerprint w k)).

(** [gs] are the groups before [g]. *)
Inductive group_fault (w : world) (ks : keystore) (gs : list group) (g : group) : exn -> Prop :=
| gf_none : gs <> [] -> gr_cert g = None \/ ~ all_certs gs ->
    group_fault w ks gs g NoCertificateGiven
| gf_cert c e : gr_cert g = Some c -> cert_fault w ks c (gr_chain g) e ->
    group_fault w ks gs g e.

(** ** DEPs *)

Definition with_verifier (ks : keystore) (g : group) (l : list str) : list (str * verifier) :=
  map (fun s => (s, verifier_of ks (gr_cert g))) l.

(** Everything before the texts [t2] of the group [g] is in order: [l] are the
    receipts. *)
Definition in_order_before (w : world) (ks : keystore) (key : option bytes) (prevStart : option str) (reg : regstate)
    (u : used) (p : option past) (gs : list group) (gs1 : list group) (g : group) (t2 : list str) (l : list item) : Prop :=
  exists gs2 t1, occupied gs = gs1 ++ g :: gs2 /\ gr_texts g = t1 ++ t2
    /\ trust_rule w ks gs1
    /\ Forall2 (text_item w) (dep_texts ks gs1 ++ with_verifier ks g t1) l
    /\ valid_sequence w key prevStart reg u p l
    /\ (t1 <> [] -> trust_rule w ks (gs1 ++ [g])).

(** The exception [e] is right about the groups [gs]. *)
Inductive diagnosis (w : world) (ks : keystore) (key : option bytes) (prevStart : option str) (reg : regstate)
    (u : used) (p : option past) (gs : list group) : exn -> Prop :=
| d_empty e : occupied gs = [] -> e = MalformedDEP \/ e = MalformedDEPElement ->
    diagnosis w ks key prevStart reg u p gs e
| d_group gs1 g l e :
    in_order_before w ks key prevStart reg u p gs gs1 g (gr_texts g) l ->
    group_fault w ks gs1 g e ->
    diagnosis w ks key prevStart reg u p gs e
| d_text gs1 g t t2 l e :
    in_order_before w ks key prevStart reg u p gs gs1 g (t :: t2) l -> trust_rule w ks (gs1 ++ [g]) ->
    text_fault w t e ->
    diagnosis w ks key prevStart reg u p gs e
| d_receipt gs1 g t t2 l r reg1 e :
    in_order_before w ks key prevStart reg u p gs gs1 g (t :: t2) l -> trust_rule w ks (gs1 ++ [g]) ->
    reads w t r -> register_after key reg p l reg1 ->
    fault w key prevStart reg1 (used_after u l) (last_of p l) (Item t r (verifier_of ks (gr_cert g))) e ->
    diagnosis w ks key prevStart reg u p gs e.
