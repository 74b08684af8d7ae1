(** What a DEP file must look like for the incremental parsers. *)
From Verif Require Import PyBase World Codec Json Pem DepParser SpecCluster.
Open Scope N_scope.

(** A member that occurs exactly once *)
Definition once (d : list (str * json)) (k : str) (v : json) : Prop :=
  exists a b, d = a ++ (k, v) :: b /\ ~ In k (map fst a) /\ ~ In k (map fst b).

(** The names of elements contain no dots. *)
Definition dot_free (k : str) : Prop := ~ In c_dot k.

(** A group: the three elements in any order, each exactly once; any other elements
    in addition. *)
Definition group_doc (w : world) (j : json) (g : group) : Prop :=
  exists d sc chain,
    j = JDict d
    /\ once d k_recs (JList (map JStr (gr_texts g)))
    /\ once d k_cert (JStr sc)
    /\ (sc = [] /\ gr_cert g = None \/ sc <> [] /\ exists c, cert_text w sc c /\ gr_cert g = Some c)
    /\ once d k_certs (JList (map JStr chain)) /\ Forall2 (cert_text w) chain (gr_chain g).

(** The file: the groups, and any other elements *)
Definition dep_doc (w : world) (doc : json) (gs : list group) : Prop :=
  exists d js, doc = JDict d /\ once d k_bg (JList js) /\ Forall2 (group_doc w) js gs.

(** The names of the elements of the file and of its groups are not empty, and
    contain no dots. Nothing is said about what is inside of unknown elements. *)
Definition plain_names (doc : json) : Prop :=
  forall d, doc = JDict d ->
    Forall (fun kv => fst kv <> [] /\ dot_free (fst kv)) d
    /\ forall js, In (k_bg, JList js) d -> forall g, In (JDict g) js -> Forall (fun kv => dot_free (fst kv)) g.

(** In every group the certificate is not empty, and it and its chain precede the
    receipts. *)
Definition certs_first (doc : json) : Prop :=
  forall d js g, doc = JDict d -> In (k_bg, JList js) d -> In (JDict g) js ->
  exists a b v, g = a ++ (k_recs, v) :: b /\ In k_certs (map fst a) /\ exists sc, In (k_cert, JStr sc) a /\ sc <> [].

(** How often a member occurs *)
Definition occurrences (k : str) (d : list (str * json)) : nat := List.length (filter (fun kv => str_eqb (fst kv) k) d).

(** The texts in a document, names not included *)
Inductive text_in : json -> str -> Prop :=
| text_self s : text_in (JStr s) s
| text_list l x s : In x l -> text_in x s -> text_in (JList l) s
| text_dict d k x s : In (k, x) d -> text_in x s -> text_in (JDict d) s.

(** The exceptions of the library for DEPs *)
Definition dep_exception (e : exn) : Prop :=
  In e [MalformedDEP; DEPParseError; MalformedDEPElement; MissingDEPElement; DuplicateDEPElement; MalformedDEPCertificate].

(** In every group the receipts, if any, are an array of texts. *)
Definition receipts_are_texts (dep : json) : Prop :=
  forall d js g jr, dep = JDict d -> dict_get d k_bg = Some (JList js) -> In (JDict g) js -> dict_get g k_recs = Some jr ->
  exists texts, jr = JList (map JStr texts).
