(** What it means for a DEP file to be valid for a register of a cluster:
    specification of the elements of the file, of the trust in certificates and of
    the bookkeeping of registers. *)
From Verif Require Import PyBase World Codec Receipt ReceiptFacts Json Pem KeyStore VerifyReceipt State DepParser
  Verify SpecReceipt SpecDep.
Open Scope N_scope.

(** ** Trust in certificates *)

(** SHA-256 over the encoded certificate *)
Definition same_fingerprint (w : world) (a b : cert) : Prop := w_sha256 w a = w_sha256 w b.
(** The entry of the key store under the serial number of a certificate *)
Definition stored (w : world) (ks : keystore) (c k : cert) : Prop :=
  getCert ks (fmt_x (Z.abs (w_serial w c))) = Some k.
(** Each certificate of the sequence is signed by the next one. *)
Definition signed_in_turn (w : world) (l : list cert) : Prop :=
  forall l1 a b l2, l = l1 ++ a :: b :: l2 -> w_cert_signed_by w a b = true.
Definition trusted (w : world) (ks : keystore) (c : cert) (chain : list cert) : Prop :=
  exists before x after,
    c :: chain = before ++ x :: after
    /\ (exists k, stored w ks x k /\ same_fingerprint w k x)
    /\ signed_in_turn w (before ++ [x])
    /\ (forall y k, In y before -> stored w ks y k -> same_fingerprint w k y).

(** ** The contents of a DEP *)

(** A group: texts of the receipts, certificate, chain *)
Record group : Type := Group { gr_texts : list str; gr_cert : option cert; gr_chain : list cert }.

(** What iterating over an element "Belege-kompakt" gives: normally the elements
    of an array of texts. *)
Definition elements (j : json) (l : list str) : Prop :=
  j = JList (map JStr l)
  \/ (exists s, j = JStr s /\ l = map (fun c => [c]) s)
  \/ (exists d, j = JDict d /\ l = map fst d).

Definition cert_text (w : world) (s : str) (c : cert) : Prop := parseDEPCert w s = Ok c.

Definition group_is (w : world) (j : json) (g : group) : Prop :=
  exists d jr sc chain,
    j = JDict d
    /\ dict_get d k_recs = Some jr /\ elements jr (gr_texts g)
    /\ dict_get d k_cert = Some (JStr sc)
    /\ (sc = [] /\ gr_cert g = None \/ sc <> [] /\ exists c, cert_text w sc c /\ gr_cert g = Some c)
    /\ dict_get d k_certs = Some (JList (map JStr chain)) /\ Forall2 (cert_text w) chain (gr_chain g).

Definition dep_is (w : world) (dep : json) (gs : list group) : Prop :=
  exists d js, dep = JDict d /\ dict_get d k_bg = Some (JList js) /\ Forall2 (group_is w) js gs.

(** The groups that contain receipts *)
Definition occupied (gs : list group) : list group :=
  filter (fun g => match gr_texts g with [] => false | _ => true end) gs.

(** All groups have trusted certificates, or there is only one group, which has
    none and for which the key store is used. *)
Definition trust_rule (w : world) (ks : keystore) (gs : list group) : Prop :=
  Forall (fun g => exists c, gr_cert g = Some c /\ trusted w ks c (gr_chain g)) gs
  \/ exists g, gs = [g] /\ gr_cert g = None.

Definition verifier_of (ks : keystore) (o : option cert) : verifier :=
  match o with Some c => fromCert c | None => fromKeyStore ks end.

(** All receipts, each with its verifier *)
Definition dep_texts (ks : keystore) (gs : list group) : list (str * verifier) :=
  flat_map (fun g => map (fun s => (s, verifier_of ks (gr_cert g))) (gr_texts g)) gs.

Definition text_item (w : world) (b : str * verifier) (i : item) : Prop :=
  i_jws i = fst b /\ reads w (fst b) (i_rec i) /\ i_ver i = snd b.

(** The receipts of a DEP, read *)
Definition dep_items (w : world) (ks : keystore) (dep : json) (l : list item) : Prop :=
  exists gs, dep_is w dep gs /\ Forall2 (text_item w) (dep_texts ks gs) l.

(** Contents and trust *)
Definition dep_ok (w : world) (ks : keystore) (dep : json) (l : list item) : Prop :=
  exists gs, dep_is w dep gs /\ trust_rule w ks (occupied gs)
    /\ Forall2 (text_item w) (dep_texts ks gs) l /\ l <> [].

(** ** Registers of a cluster *)

Definition start_of_last (l : list regstate) : option str :=
  match rev l with [] => None | r :: _ => s_start r end.

(** The register with the given index, or a new one after the last, which must
    have a start receipt. [before] and [after] are the other registers. *)
Inductive selects (c : cluster) : option Z -> list regstate -> regstate -> list regstate -> Prop :=
| sel_old before reg after :
    c_regs c = before ++ reg :: after ->
    selects c (Some (Z.of_nat (List.length before))) before reg after
| sel_new idx :
    idx = None \/ idx = Some (Z.of_nat (List.length (c_regs c))) ->
    c_regs c = [] \/ truthy (start_of_last (c_regs c)) <> None ->
    selects c idx (c_regs c) new_register [].

(** ** Vocabulary of the properties *)

(** What the first receipt must be chained to *)
Definition predecessor_text (prevStart : option str) (p : option past) (i : item) : str :=
  match p with
  | Some (s, _) => s
  | None => match truthy prevStart with Some s => s | None => r_registerId (i_rec i) end
  end.

Definition agrees (later earlier : receipt) : Prop :=
  r_registerId later = r_registerId earlier
  /\ (closed later <-> closed earlier)
  /\ not_before (r_dateTime later) (r_dateTime earlier).

(** The order of the sorted backend on IDs *)
Definition natural_lt (w : world) (a b : str) : Prop :=
  exists ka kb, nat_key w a = Ok ka /\ nat_key w b = Ok kb /\ key_lt ka kb = Ok true.

(** Strictly increasing *)
Fixpoint increasing (w : world) (l : list str) : Prop :=
  match l with
  | [] => True
  | x :: r => (match r with [] => True | y :: _ => natural_lt w x y end) /\ increasing w r
  end.

(** The index of the register a verification worked on, for further calls *)
Definition same_register (before : list regstate) : option Z := Some (Z.of_nat (List.length before)).

(** A DEP [dep] consists of the receipts of [dep1] and [dep2]. *)
Definition concatenated (w : world) (ks : keystore) (dep dep1 dep2 : json) : Prop :=
  forall items, dep_ok w ks dep items <->
    exists items1 items2, items = items1 ++ items2 /\ dep_ok w ks dep1 items1 /\ dep_ok w ks dep2 items2.

Definition all_certs (gs : list group) : Prop := Forall (fun g => gr_cert g <> None) gs.

(** [gs1] and [gs2] arise from [gs] by cutting it before some receipt. Without
    certificates there must be only one group. *)
Definition cut (gs gs1 gs2 : list group) : Prop :=
  exists pre t1 t2 c ch post,
    gs = pre ++ Group (t1 ++ t2) c ch :: post
    /\ gs1 = pre ++ [Group t1 c ch] /\ gs2 = Group t2 c ch :: post
    /\ (all_certs gs \/ (pre = [] /\ post = [])).

(** Texts that can be kept in memory *)
Definition texts_encodable (ks : keystore) (gs : list group) : Prop :=
  Forall (fun t => exists b, utf8_encode (fst t) = Ok b) (dep_texts ks gs).

Definition unharmed (c c' : cluster) : Prop :=
  c_used c' = c_used c /\ (c_regs c' = c_regs c \/ c_regs c' = c_regs c ++ [new_register]).

(** Two different texts with the same chaining value *)
Definition chain_collision (w : world) (s t : str) : Prop :=
  s <> t /\ exists v, chain_value w s v /\ chain_value w t v.

(** The texts that are hashed for chaining *)
Definition hashed (items : list item) (s : str) : Prop :=
  exists i, In i items /\ (s = i_jws i \/ s = r_registerId (i_rec i)).

(** Nothing precedes the register's first receipt. *)
Definition virgin (before : list regstate) (reg : regstate) : Prop :=
  absent (s_last reg) /\ absent (s_chain reg) /\ absent (start_of_last before).
