(** Concrete streams and DEPs for merging, exporting and splitting. *)
From Coq Require Import Lia.
From Verif Require Import PyBase World Codec Receipt DepBase Json Pem KeyStore VerifyReceipt State DepParser Verify DepExport SpecReceipt SpecDep SpecCluster SpecDoc
  SpecChunks SpecKeys RoundTrip SpecMerge SpecExport ExampleWorld ExampleReceipts ExampleDep ExampleInc.
Open Scope N_scope.
Open Scope py_scope.

(** ** Streams *)

(** Groups of numbers: two certificates, one of them with two chains *)
Definition ex_stream : stream (rgroup N) :=
  ([RGroup [1; 2] (Some [90]) []; RGroup [3] (Some [90]) []; RGroup [4] (Some [91]) [[90]]; RGroup [5] (Some [90]) [[91]]], None).
Definition ex_chains : stream (rgroup N) := ([RGroup [1] (Some [90]) [[91]]; RGroup [2] (Some [90]) []], None).

Lemma ex_merge : read_in_turn ex_stream =
  Some ([RGroup [1; 2; 3] (Some [90]) []; RGroup [4] (Some [91]) [[90]]; RGroup [5] (Some [90]) [[91]]], None).
Proof. reflexivity. Qed.

Lemma chains_lost : exists (s : stream (rgroup N)) out, read_in_turn s = Some (out, snd s) /\ stamps out <> stamps (fst s).
Proof. exists ex_chains, [RGroup [1; 2] (Some [90]) [[91]]]. split; [reflexivity|discriminate]. Qed.

(** Two groups are taken before the receipts of the first one are read. *)
Lemma order_lost : exists (s : stream (rgroup N)) calls out,
  fst (use (MergingDEPStream s) calls) = out /\ pending (snd (use (MergingDEPStream s) calls)) = [] /\ out <> cert_stamps (fst s).
Proof.
  exists ([RGroup [1] (Some [90]) []; RGroup [2] (Some [91]) []; RGroup [3] (Some [90]) []], None),
    [NextGroup; NextGroup; NextReceipt 1; NextReceipt 0; NextGroup; NextReceipt 2]. eexists. split; [vm_compute; reflexivity|].
  split; [vm_compute; reflexivity|discriminate].
Qed.

(** ** Canonical texts *)

Definition url_charb (c : N) : bool := (65 <=? c) && (c <=? 90) || (97 <=? c) && (c <=? 122) || (48 <=? c) && (c <=? 57) || (c =? c_dash) || (c =? c_us).
Definition canonb (s : str) : bool :=
  forallb url_charb s && ((List.length s mod 4 =? 0)%nat || (List.length s mod 4 =? 2)%nat && (seg_last s mod 16 =? 0) || (List.length s mod 4 =? 3)%nat && (seg_last s mod 4 =? 0)).
Lemma canonb_ok s : canonb s = true -> canon_seg s.
Proof.
  intros H. apply andb_prop in H as [H1 H2]. split.
  - apply Forall_forall. intros c Hc. rewrite forallb_forall in H1. specialize (H1 c Hc). unfold url_charb, is_url_char in *.
    repeat rewrite ?Bool.orb_true_iff, ?Bool.andb_true_iff, ?N.leb_le, ?N.eqb_eq in H1. tauto.
  - repeat rewrite ?Bool.orb_true_iff, ?Bool.andb_true_iff, ?Nat.eqb_eq, ?N.eqb_eq in H2. tauto.
Qed.
Fixpoint before_dot (s : str) : option (str * str) :=
  match s with
  | [] => None
  | c :: r => if c =? c_dot then Some ([], r) else match before_dot r with Some (h, t) => Some (c :: h, t) | None => None end
  end.
Lemma before_dot_ok s h t : before_dot s = Some (h, t) -> s = h ++ [c_dot] ++ t.
Proof.
  revert h t. induction s as [|c s IH]; intros h t H; [discriminate|]. cbn [before_dot] in H. destruct (c =? c_dot) eqn:E.
  - apply N.eqb_eq in E. injection H as <- <-. now rewrite E.
  - destruct (before_dot s) as [[h' t']|] eqn:E'; [|discriminate]. injection H as <- <-. cbn [app]. now rewrite (IH h' t' eq_refl).
Qed.
Definition text_canonb (t : str) : bool :=
  match before_dot t with
  | Some (h, r) => match before_dot r with Some (p, _) => canonb h && canonb p | None => false end
  | None => false
  end.
Lemma text_canonb_ok t : text_canonb t = true -> canonical_text t.
Proof.
  unfold text_canonb. destruct (before_dot t) as [[h r]|] eqn:E1; [|discriminate]. destruct (before_dot r) as [[p g]|] eqn:E2; [|discriminate].
  intros H. apply andb_prop in H as [H1 H2]. exists h, p, g. split; [|split; now apply canonb_ok].
  rewrite (before_dot_ok _ _ _ E1), (before_dot_ok _ _ _ E2). now rewrite <- ?app_assoc.
Qed.
Lemma canonical_groups gs : forallb (fun g => forallb text_canonb (gr_texts g)) gs = true -> canonical_texts gs.
Proof.
  intros H. unfold canonical_texts. apply Forall_forall. intros g G. apply Forall_forall. intros t T.
  rewrite forallb_forall in H. specialize (H g G). rewrite forallb_forall in H. now apply text_canonb_ok, H.
Qed.

(** ** Splitting and merging *)

Lemma ex_group_doc l : group_doc toy_world (ex_group ex_cert_text [] l) (Group l (Some ex_cert) []).
Proof.
  eexists _, ex_cert_text, []. split; [reflexivity|]. split; [once_at 2%nat|]. split; [once_at 0%nat|].
  split; [right; split; [discriminate|]; exists ex_cert; split; [exact ex_cert_ok|reflexivity]|]. split; [once_at 1%nat|constructor].
Qed.
Lemma ex_dep_doc : dep_doc toy_world ex_dep (ex_gs1 ++ ex_gs2).
Proof.
  eexists _, _. split; [reflexivity|]. split; [once_at 0%nat|].
  constructor; [apply ex_group_doc|]. constructor; [apply ex_group_doc|]. constructor; [apply ex_group_doc|constructor].
Qed.
Lemma ex_dep1_doc : dep_doc toy_world ex_dep1 ex_gs1.
Proof.
  eexists _, _. split; [reflexivity|]. split; [once_at 0%nat|]. constructor; [apply ex_group_doc|]. constructor; [apply ex_group_doc|constructor].
Qed.
Lemma ex_dep2_doc : dep_doc toy_world ex_dep2 ex_gs2.
Proof. eexists _, _. split; [reflexivity|]. split; [once_at 0%nat|]. constructor; [apply ex_group_doc|constructor]. Qed.
Lemma ex_canonical1 : canonical_texts ex_gs1.
Proof. apply canonical_groups. vm_compute. reflexivity. Qed.
Lemma ex_canonical2 : canonical_texts ex_gs2.
Proof. apply canonical_groups. vm_compute. reflexivity. Qed.
Lemma ex_canonical : canonical_texts (ex_gs1 ++ ex_gs2).
Proof. apply Forall_app. split; [apply ex_canonical1|apply ex_canonical2]. Qed.

(** Files of three receipts *)
Definition ex_files : list json := Eval vm_compute in fst (split_py toy_world P_file ex_dep 3).
Lemma ex_split : split_py toy_world P_file ex_dep 3 = (ex_files, None) /\ List.length ex_files = 3%nat.
Proof. split; vm_compute; reflexivity. Qed.
Definition ex_merged : json := Eval vm_compute in
  match merge_py toy_world true 2 [ex_dep1; ex_dep2] with Some (Ok d) => d | _ => JNull end.
Lemma ex_merging : merge_py toy_world true 2 [ex_dep1; ex_dep2] = Some (Ok ex_merged).
Proof. vm_compute. reflexivity. Qed.

(** The first receipt is not canonically encoded, the second is chained to its text. *)
Definition ex_first := Eval vm_compute in ex_input (ex_rec (lit "1") (lit "2017-01-01T08:00:00") (lit "0,00") (ex_tc (lit "1") 0) (lit "REG-1")).
Definition ex_n1 := Eval vm_compute in removelast ex_first ++ [last ex_first 0 + 1] ++ [c_dot] ++ b64url_nopad (toy_sign ex_priv ex_first).
Definition ex_n2 := Eval vm_compute in ex_signed (ex_rec (lit "2") (lit "2017-01-01T08:00:00") (lit "1,00") (ex_tc (lit "2") 100) ex_n1).
Definition ex_depn : json := ex_dep_of [ex_group ex_cert_text [] [ex_n1; ex_n2]].
Definition ex_depn_end : cluster := Eval vm_compute in fst (verifyDEP toy_world ex_depn ex_ks (Some ex_key) ex_start None).
Definition ex_filen : json := Eval vm_compute in match fst (split_py toy_world P_file ex_depn 2) with [f] => f | _ => JNull end.

Lemma split_breaks : exists w doc n files ks key c c' e, hash_ok w /\ pem_ok w /\ plain_names doc /\ split_py w P_file doc n = (files, None)
  /\ verifyDEP w (load doc) ks key c None = (c', None)
  /\ exists f, files = [f] /\ snd (verifyDEP w (load f) ks key c None) = Some e.
Proof.
  exists toy_world, ex_depn, 2%nat, [ex_filen], ex_ks, (Some ex_key), ex_start, ex_depn_end, (ChainingError (lit "2")).
  split; [exact toy_hash_ok|]. split; [exact toy_pem_ok|]. split; [apply plainb_ok; vm_compute; reflexivity|].
  split; [vm_compute; reflexivity|]. split; [vm_compute; reflexivity|]. exists ex_filen. split; [reflexivity|]. vm_compute. reflexivity.
Qed.

(** A certificate that is only trusted because of its chain, which the second DEP
    lacks *)
Definition ex_ca : cert := [91; 9; 9].
Definition ex_leaf : cert := [90; 7; 9].
Definition ex_ca_ks : keystore := [(lit "5b", KeyTuple [9] (Some ex_ca))].
Definition ex_ca_text : str := Eval vm_compute in exportCertToPEM toy_world ex_ca.
Definition ex_leaf_text : str := Eval vm_compute in exportCertToPEM toy_world ex_leaf.
Definition ex_with : json := ex_dep_of [ex_group ex_leaf_text [ex_ca_text] [ex_t1]].
Definition ex_without : json := ex_dep_of [ex_group ex_leaf_text [] [ex_t2]].
Definition ex_with_c1 : cluster := Eval vm_compute in fst (verifyDEP toy_world ex_with ex_ca_ks (Some ex_key) ex_start None).
Definition ex_lenient : json := Eval vm_compute in
  match merge_py toy_world true 0 [ex_with; ex_without] with Some (Ok d) => d | _ => JNull end.
Definition ex_with_c2 : cluster := Eval vm_compute in fst (verifyDEP toy_world ex_lenient ex_ca_ks (Some ex_key) ex_start None).

Lemma merge_lenient : exists w n docs dep ks key c c' e, hash_ok w /\ pem_ok w /\ Forall plain_names docs
  /\ merge_py w true n docs = Some (Ok dep)
  /\ verifyDEP w (load dep) ks key c None = (c', None)
  /\ exists d1 d2 c1, docs = [d1; d2] /\ verifyDEP w (load d1) ks key c None = (c1, None) /\ snd (verifyDEP w (load d2) ks key c1 (Some 0%Z)) = Some e.
Proof.
  exists toy_world, 0%nat, [ex_with; ex_without], ex_lenient, ex_ca_ks, (Some ex_key), ex_start, ex_with_c2, (UntrustedCertificate (lit "5a")).
  split; [exact toy_hash_ok|]. split; [exact toy_pem_ok|].
  split; [constructor; [apply plainb_ok; vm_compute; reflexivity|constructor; [apply plainb_ok; vm_compute; reflexivity|constructor]]|].
  split; [vm_compute; reflexivity|]. split; [vm_compute; reflexivity|]. exists ex_with, ex_without, ex_with_c1.
  split; [reflexivity|]. split; [vm_compute; reflexivity|]. vm_compute. reflexivity.
Qed.

(** ** The default of DEPExporter *)
Lemma default_useless w identity nparts n : (1 <= nparts)%nat -> exists e, parse_dict w nparts (load (export_default identity [])) n = ([], Some e).
Proof.
  intros H. eexists. destruct nparts as [|nparts]; [lia|]. unfold parse_dict. cbn. reflexivity.
Qed.
