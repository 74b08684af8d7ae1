(** Files the incremental parsers read to the end are well-formed. *)
From Coq Require Import Lia ZifyClasses ZifyNat ZifyBool.
From Verif Require Import PyBase World Codec Receipt DepBase Json Pem DepParser ListFacts SpecCluster SpecDoc AcceptFacts SpecChunks ChunkFacts
  DictFacts IncFacts IncDoc.
Open Scope N_scope.
Open Scope py_scope.

(** The part of the state that decides what is allowed next *)
Definition flags (d : dstate) : mode * bool * bool * bool * bool * bool :=
  (d_mode d, d_root_seen d, d_groups_seen d, d_recs_seen d, d_cert_seen d, d_list_seen d).

Lemma merge_flags d : flags (mergeIntoChunk d) = flags d.
Proof. unfold mergeIntoChunk. destruct (d_recs d); reflexivity. Qed.
Lemma get_flags m d : flags (snd (getChunk m d)) = flags d.
Proof.
  unfold getChunk. cbv zeta. destruct (incomplete m).
  - rewrite <- (merge_flags d). destruct (currentChunksize (mergeIntoChunk d) <=? 0)%nat; reflexivity.
  - destruct (currentChunksize d <=? 0)%nat; reflexivity.
Qed.
Lemma need_flags w kind doc i d d' : needCerts w kind doc i d = Ok d' -> flags d' = flags d.
Proof.
  destruct kind; cbn [needCerts]; [discriminate|intros H; apply Ok_inj in H; now subst|].
  intros H. apply bind_Ok in H as (cs & _ & H). apply bind_Ok in H as (cl & _ & H). apply bind_Ok in H as (c & _ & H).
  apply bind_Ok in H as (l & _ & H). apply bind_Ok in H as (ch & _ & H). apply Ok_inj in H. subst. reflexivity.
Qed.

Section Back.
Variables (w : world) (kind : parser_kind) (doc : json) (n : nat).
Local Notation loop := (inc_loop w kind doc n).

(** Reading [evs] from a state with these flags succeeds. *)
Definition succeeds (evs : list (str * event)) f : Prop :=
  exists d got cs, flags d = f /\ loop evs d got = (cs, None).

Lemma succeeds_step p e l f : succeeds ((p, e) :: l) f ->
  exists d d', flags d = f /\ d_parse w d p e = Ok d' /\ succeeds l (flags d').
Proof.
  intros (d & got & cs & Ef & H). cbn [inc_loop] in H. destruct (d_parse w d p e) as [d'|] eqn:P; [|discriminate].
  exists d, d'. split; [exact Ef|]. split; [exact P|]. cbv zeta in H. destruct (d_ready (d_mode d) n d').
  - destruct (match needCrt (d_mode d) d' with None => Ok d' | Some i => needCerts w kind doc i d' end) as [d2|] eqn:E; [|discriminate].
    assert (flags d2 = flags d') as F2.
    { destruct (needCrt (d_mode d) d'); [now apply need_flags in E|]. apply Ok_inj in E. now subst. }
    unfold s_cons in H. exists (snd (getChunk (d_mode d) d2)), true, (fst (loop l (snd (getChunk (d_mode d) d2)) true)).
    split; [now rewrite get_flags|]. injection H as _ H. rewrite <- H. apply surjective_pairing.
  - exists d', got, cs. auto.
Qed.

Lemma flags_eq d m r g a b c : flags d = (m, r, g, a, b, c) ->
  d_mode d = m /\ d_root_seen d = r /\ d_groups_seen d = g /\ d_recs_seen d = a /\ d_cert_seen d = b /\ d_list_seen d = c.
Proof. unfold flags. intros H. injection H. auto 10. Qed.

(** Everything in [evs] is skipped in mode [m]. *)
Lemma succeeds_quiet evs rest m r g a b c :
  Forall (fun x => forall d, d_mode d = m -> d_parse w d (fst x) (snd x) = Ok d) evs ->
  succeeds (evs ++ rest) (m, r, g, a, b, c) -> succeeds rest (m, r, g, a, b, c).
Proof.
  intros F. induction F as [|[p e] evs H _ IH]; [auto|]. cbn [app]. intros S. apply succeeds_step in S as (d & d' & Ef & P & S).
  cbn [fst snd] in H. rewrite (H d) in P by now apply flags_eq in Ef. apply Ok_inj in P. subst d'. rewrite Ef in S. auto.
Qed.

Lemma quiet_root k x rest r g a b c : k <> [] -> dot_free k -> k <> k_bg ->
  succeeds (events [k] x ++ rest) (M_root_map, r, g, a, b, c) -> succeeds rest (M_root_map, r, g, a, b, c).
Proof.
  intros N F B. apply succeeds_quiet. eapply Forall_impl; [|apply events_below]. intros [p e] H d M. cbn [fst snd] in *.
  destruct (unknown_root k p N F B H) as (P1 & P2 & _). apply str_eqb_neq in P1, P2. unfold d_parse. rewrite M, P1, P2. now destruct e.
Qed.

Lemma quiet_group k x rest r g a b c : dot_free k -> k <> k_cert -> k <> k_certs -> k <> k_recs ->
  succeeds (events [k; k_item; k_bg] x ++ rest) (M_group, r, g, a, b, c) -> succeeds rest (M_group, r, g, a, b, c).
Proof.
  intros F N1 N2 N3. apply succeeds_quiet. eapply Forall_impl; [|apply events_below]. intros [p e] H d M. cbn [fst snd] in *.
  pose proof (group_not_item _ _ H) as P0. pose proof (unknown_group k k_cert p F cert_dot_free N1 H) as P1.
  pose proof (unknown_group k k_certs p F certs_dot_free N2 H) as P2. pose proof (unknown_group k k_recs p F recs_dot_free N3 H) as P3.
  change (p_item ++ c_dot :: k_cert) with p_cert in P1. change (p_item ++ c_dot :: k_certs) with p_certs in P2.
  change (p_item ++ c_dot :: k_recs) with p_recs in P3. apply str_eqb_neq in P0, P1, P2, P3.
  unfold d_parse. rewrite M, P0, P1, P2, P3. now destruct e.
Qed.

(** Receipts and certificates of the chain *)
Lemma back_texts l rest r g a b c :
  succeeds (list_events [k_recs; k_item; k_bg] l ++ rest) (M_recs, r, g, a, b, c) ->
  exists texts bs, l = map JStr texts /\ Forall2 (fun t b => utf8_encode t = Ok b) texts bs /\ succeeds rest (M_group, r, g, a, b, c).
Proof.
  induction l as [|x l IH]; cbn [list_events].
  - cbn [app]. intros S. apply succeeds_step in S as (d & d' & Ef & P & S). pose proof (flags_eq _ _ _ _ _ _ _ Ef) as (M & Fl).
    unfold d_parse in P. rewrite M in P. apply Ok_inj in P. subst d'. exists [], []. split; [reflexivity|]. split; [constructor|].
    replace (flags (set_mode d M_group)) with (M_group, r, g, a, b, c) in S; [exact S|]. unfold flags, set_mode.
    cbn [d_mode d_root_seen d_groups_seen d_recs_seen d_cert_seen d_list_seen]. destruct Fl as (-> & -> & -> & -> & ->). reflexivity.
  - intros S. rewrite <- app_assoc in S.
    assert (exists s, x = JStr s) as [s ->].
    { destruct x as [| | | |s|l'|d']; [..|eauto|rewrite events_list in S|rewrite events_dict in S]; exfalso;
        cbn [events app] in S; apply succeeds_step in S as (d & d2 & Ef & P & _); apply flags_eq in Ef as (M & _);
        unfold d_parse in P; rewrite M in P; discriminate. }
    cbn [events app] in S. apply succeeds_step in S as (d & d' & Ef & P & S). pose proof (flags_eq _ _ _ _ _ _ _ Ef) as (M & Fl).
    unfold d_parse in P. rewrite M in P. change (str_eqb (dotted (rev [k_item; k_recs; k_item; k_bg])) p_recs) with false in P.
    change (str_eqb (dotted (rev [k_item; k_recs; k_item; k_bg])) p_recs_item) with true in P. cbv iota in P.
    apply bind_Ok in P as (bt & E & P). apply Ok_inj in P. subst d'.
    match type of S with succeeds _ (flags ?x) => replace (flags x) with (M_recs, r, g, a, b, c) in S end.
    2:{ unfold flags. cbn [d_mode d_root_seen d_groups_seen d_recs_seen d_cert_seen d_list_seen]. destruct Fl as (-> & -> & -> & -> & ->). reflexivity. }
    destruct (IH S) as (texts & bs & -> & F & S'). exists (s :: texts), (bt :: bs). split; [reflexivity|]. split; [now constructor|exact S'].
Qed.

Lemma back_chain l rest r g a b c :
  succeeds (list_events [k_certs; k_item; k_bg] l ++ rest) (M_certs, r, g, a, b, c) ->
  exists texts cs, l = map JStr texts /\ Forall2 (cert_text w) texts cs /\ succeeds rest (M_group, r, g, a, b, c).
Proof.
  induction l as [|x l IH]; cbn [list_events].
  - cbn [app]. intros S. apply succeeds_step in S as (d & d' & Ef & P & S). pose proof (flags_eq _ _ _ _ _ _ _ Ef) as (M & Fl).
    unfold d_parse in P. rewrite M in P. apply Ok_inj in P. subst d'. exists [], []. split; [reflexivity|]. split; [constructor|].
    replace (flags (set_mode d M_group)) with (M_group, r, g, a, b, c) in S; [exact S|]. unfold flags, set_mode.
    cbn [d_mode d_root_seen d_groups_seen d_recs_seen d_cert_seen d_list_seen]. destruct Fl as (-> & -> & -> & -> & ->). reflexivity.
  - intros S. rewrite <- app_assoc in S.
    assert (exists s, x = JStr s) as [s ->].
    { destruct x as [| | | |s|l'|d']; [..|eauto|rewrite events_list in S|rewrite events_dict in S]; exfalso;
        cbn [events app] in S; apply succeeds_step in S as (d & d2 & Ef & P & _); apply flags_eq in Ef as (M & _);
        unfold d_parse in P; rewrite M in P; discriminate. }
    cbn [events app] in S. apply succeeds_step in S as (d & d' & Ef & P & S). pose proof (flags_eq _ _ _ _ _ _ _ Ef) as (M & Fl).
    unfold d_parse in P. rewrite M in P. change (str_eqb (dotted (rev [k_item; k_certs; k_item; k_bg])) p_certs) with false in P.
    change (str_eqb (dotted (rev [k_item; k_certs; k_item; k_bg])) p_certs_item) with true in P. cbv iota in P.
    apply bind_Ok in P as (ct & E & P). apply Ok_inj in P. subst d'.
    match type of S with succeeds _ (flags ?x) => replace (flags x) with (M_certs, r, g, a, b, c) in S end.
    2:{ unfold flags. cbn [d_mode d_root_seen d_groups_seen d_recs_seen d_cert_seen d_list_seen]. destruct Fl as (-> & -> & -> & -> & ->). reflexivity. }
    destruct (IH S) as (texts & cs & -> & F & S'). exists (s :: texts), (ct :: cs). split; [reflexivity|]. split; [now constructor|exact S'].
Qed.

Lemma once_cons k v d k' x : once d k v -> k' <> k -> once ((k', x) :: d) k v.
Proof.
  intros (a & b & -> & Na & Nb) N. exists ((k', x) :: a), b. split; [reflexivity|]. split; [|exact Nb]. cbn [map fst]. intros [E|I]; [congruence|now apply Na].
Qed.
Lemma once_here k v d : ~ In k (map fst d) -> once ((k, v) :: d) k v.
Proof. intros N. exists [], d. split; [reflexivity|]. split; [intros []|exact N]. Qed.

Definition texts_in (d : list (str * json)) (texts : list str) : Prop := once d k_recs (JList (map JStr texts)).
Definition owed (flag : bool) (d : list (str * json)) (k : str) (P : json -> Prop) : Prop :=
  if flag then ~ In k (map fst d) else exists v, once d k v /\ P v.

Lemma owed_cons (flag : bool) d k P k' x : owed flag d k P -> k' <> k -> owed flag ((k', x) :: d) k P.
Proof.
  destruct flag; cbn [owed].
  - intros H N. cbn [map fst]. intros [E|I]; [congruence|now apply H].
  - intros (v & O & H) N. exists v. split; [now apply once_cons|exact H].
Qed.

Definition is_recs (v : json) : Prop := exists texts bs, v = JList (map JStr texts) /\ Forall2 (fun t b => utf8_encode t = Ok b) texts bs.
Definition is_cert (v : json) : Prop := exists sc, v = JStr sc /\ (sc = [] \/ exists c, cert_text w sc c).
Definition is_certs (v : json) : Prop := exists texts cs, v = JList (map JStr texts) /\ Forall2 (cert_text w) texts cs.

Lemma back_members d rest r g : Forall (fun kv => dot_free (fst kv)) d -> forall a b c,
  succeeds (dict_events [k_item; k_bg] d ++ rest) (M_group, r, g, a, b, c) ->
  owed a d k_recs is_recs /\ owed b d k_cert is_cert /\ owed c d k_certs is_certs /\ exists a' b' c', succeeds rest (M_list, r, g, a', b', c').
Proof.
  induction 1 as [|[k v] d Fk _ IH]; intros a b c S.
  - cbn [dict_events app] in S. apply succeeds_step in S as (st & st' & Ef & P & S). pose proof (flags_eq _ _ _ _ _ _ _ Ef) as (M & Fr & Fg & Fa & Fb & Fc).
    unfold d_parse in P. rewrite M in P. change (str_eqb (dotted (rev [k_item; k_bg])) p_item) with true in P. cbv iota in P.
    rewrite Fb, Fc, Fa in P. destruct b; [|discriminate]. destruct c; [|discriminate]. destruct a; [|discriminate].
    apply Ok_inj in P. subst st'. cbn [owed map]. split; [intros []|]. split; [intros []|]. split; [intros []|].
    exists true, true, true. replace (flags _) with (M_list, r, g, true, true, true) in S; [exact S|].
    pose proof (merge_flags st) as X. rewrite Ef in X. apply flags_eq in X as (_ & X1 & X2 & X3 & X4 & X5).
    unfold flags, set_mode. cbn [d_mode d_root_seen d_groups_seen d_recs_seen d_cert_seen d_list_seen]. congruence.
  - cbn [dict_events] in S. cbn [fst] in Fk.
    assert (succeeds (events [k; k_item; k_bg] v ++ dict_events [k_item; k_bg] d ++ rest) (M_group, r, g, a, b, c)) as S0.
    { cbn [app] in S. apply succeeds_step in S as (st & st' & Ef & P & S). pose proof (flags_eq _ _ _ _ _ _ _ Ef) as (M & _).
      unfold d_parse in P. rewrite M in P. change (str_eqb (dotted (rev [k_item; k_bg])) p_item) with true in P. cbv iota in P.
      change (Ok st = Ok st') in P. apply Ok_inj in P. subst st'. rewrite Ef in S. rewrite <- app_assoc in S. exact S. }
    clear S. rename S0 into S.
    destruct (list_eq_dec N.eq_dec k k_cert) as [->|N1]; [|destruct (list_eq_dec N.eq_dec k k_certs) as [->|N2];
      [|destruct (list_eq_dec N.eq_dec k k_recs) as [->|N3]]].
    + assert (b = false /\ is_cert v /\ succeeds (dict_events [k_item; k_bg] d ++ rest) (M_group, r, g, a, true, c)) as (-> & Hv & S').
      { assert (exists e l, events [k_cert; k_item; k_bg] v = (p_cert, e) :: l /\ (e = E_start_map \/ e = E_start_array \/ e = E_scalar \/ exists s, e = E_string s /\ l = [] /\ v = JStr s)) as (e & l & Ev & He).
        { destruct v as [| | | |s|l'|d']; [..|rewrite events_list|rewrite events_dict]; cbn [events]; eexists; eexists; (split; [reflexivity|]); eauto 10. }
        rewrite Ev in S. cbn [app] in S. apply succeeds_step in S as (st & st' & Ef & P & S). pose proof (flags_eq _ _ _ _ _ _ _ Ef) as (M & Fr & Fg & Fa & Fb & Fc).
        unfold d_parse in P. rewrite M in P. change (str_eqb p_cert p_item) with false in P. change (str_eqb p_cert p_cert) with true in P.
        cbv iota in P. rewrite Fb in P. destruct b; [discriminate|]. cbn [negb] in P.
        destruct He as [->|[->|[->|(s & -> & -> & ->)]]]; try discriminate. apply bind_Ok in P as (cc & E & P). apply Ok_inj in P. subst st'.
        split; [reflexivity|]. split.
        - exists s. split; [reflexivity|]. destruct s as [|s0 s]; [now left|]. right. cbn [nonempty] in E. apply bind_Ok in E as (x & E & _). exists x. exact E.
        - cbn [app] in S. match type of S with succeeds _ (flags ?x) => replace (flags x) with (M_group, r, g, a, true, c) in S end; [exact S|].
          unfold flags. cbn [d_mode d_root_seen d_groups_seen d_recs_seen d_cert_seen d_list_seen]. now rewrite Fr, Fg, Fa, Fc. }
      destruct (IH _ _ _ S') as (H1 & H2 & H3 & H4). split; [apply owed_cons; [exact H1|discriminate]|]. split.
      { cbn [owed] in *. exists v. split; [now apply once_here|exact Hv]. }
      split; [apply owed_cons; [exact H3|discriminate]|exact H4].
    + assert (c = false /\ exists l, v = JList l /\ succeeds (list_events [k_certs; k_item; k_bg] l ++ dict_events [k_item; k_bg] d ++ rest) (M_certs, r, g, a, b, true))
        as (-> & l & -> & S').
      { assert (exists e l, events [k_certs; k_item; k_bg] v = (p_certs, e) :: l /\ (e = E_start_map \/ e = E_scalar \/ (exists s, e = E_string s) \/ e = E_start_array /\ exists l', v = JList l' /\ l = list_events [k_certs; k_item; k_bg] l')) as (e & l & Ev & He).
        { destruct v as [| | | |s|l'|d']; [..|rewrite events_list|rewrite events_dict]; cbn [events]; eexists; eexists; (split; [reflexivity|]); eauto 10. }
        rewrite Ev in S. cbn [app] in S. apply succeeds_step in S as (st & st' & Ef & P & S). pose proof (flags_eq _ _ _ _ _ _ _ Ef) as (M & Fr & Fg & Fa & Fb & Fc).
        unfold d_parse in P. rewrite M in P. change (str_eqb p_certs p_item) with false in P. change (str_eqb p_certs p_cert) with false in P.
        change (str_eqb p_certs p_certs) with true in P. cbv iota in P. rewrite Fc in P. destruct c; [discriminate|]. cbn [negb] in P.
        split; [reflexivity|]. destruct He as [->|[->|[(s & ->)|(-> & l' & -> & ->)]]]; try discriminate. apply Ok_inj in P. subst st'.
        exists l'. split; [reflexivity|]. match type of S with succeeds _ (flags ?x) => replace (flags x) with (M_certs, r, g, a, b, true) in S end; [exact S|].
        unfold flags. cbn [d_mode d_root_seen d_groups_seen d_recs_seen d_cert_seen d_list_seen]. now rewrite Fr, Fg, Fa, Fb. }
      apply back_chain in S' as (texts & cs & -> & F & S'). destruct (IH _ _ _ S') as (H1 & H2 & H3 & H4).
      split; [apply owed_cons; [exact H1|discriminate]|]. split; [apply owed_cons; [exact H2|discriminate]|]. split; [|exact H4].
      cbn [owed] in *. exists (JList (map JStr texts)). split; [now apply once_here|]. exists texts, cs. auto.
    + assert (a = false /\ exists l, v = JList l /\ succeeds (list_events [k_recs; k_item; k_bg] l ++ dict_events [k_item; k_bg] d ++ rest) (M_recs, r, g, true, b, c))
        as (-> & l & -> & S').
      { assert (exists e l, events [k_recs; k_item; k_bg] v = (p_recs, e) :: l /\ (e = E_start_map \/ e = E_scalar \/ (exists s, e = E_string s) \/ e = E_start_array /\ exists l', v = JList l' /\ l = list_events [k_recs; k_item; k_bg] l')) as (e & l & Ev & He).
        { destruct v as [| | | |s|l'|d']; [..|rewrite events_list|rewrite events_dict]; cbn [events]; eexists; eexists; (split; [reflexivity|]); eauto 10. }
        rewrite Ev in S. cbn [app] in S. apply succeeds_step in S as (st & st' & Ef & P & S). pose proof (flags_eq _ _ _ _ _ _ _ Ef) as (M & Fr & Fg & Fa & Fb & Fc).
        unfold d_parse in P. rewrite M in P. change (str_eqb p_recs p_item) with false in P. change (str_eqb p_recs p_cert) with false in P.
        change (str_eqb p_recs p_certs) with false in P. change (str_eqb p_recs p_recs) with true in P. cbv iota in P. rewrite Fa in P. destruct a; [discriminate|]. cbn [negb] in P.
        split; [reflexivity|]. destruct He as [->|[->|[(s & ->)|(-> & l' & -> & ->)]]]; try discriminate. apply Ok_inj in P. subst st'.
        exists l'. split; [reflexivity|]. match type of S with succeeds _ (flags ?x) => replace (flags x) with (M_recs, r, g, true, b, c) in S end; [exact S|].
        unfold flags. cbn [d_mode d_root_seen d_groups_seen d_recs_seen d_cert_seen d_list_seen]. now rewrite Fr, Fg, Fb, Fc. }
      apply back_texts in S' as (texts & bs & -> & F & S'). destruct (IH _ _ _ S') as (H1 & H2 & H3 & H4).
      split; [|split; [apply owed_cons; [exact H2|discriminate]|split; [apply owed_cons; [exact H3|discriminate]|exact H4]]].
      cbn [owed] in *. exists (JList (map JStr texts)). split; [now apply once_here|]. exists texts, bs. auto.
    + apply quiet_group in S; try assumption. destruct (IH _ _ _ S) as (H1 & H2 & H3 & H4).
      split; [apply owed_cons; [exact H1|congruence]|]. split; [apply owed_cons; [exact H2|congruence]|]. split; [apply owed_cons; [exact H3|congruence]|exact H4].
Qed.

(** A group can be encoded. *)
Definition encodable (g : group) : Prop := exists dg, encoded g dg.

Lemma back_groups js rest r g : (forall d, In (JDict d) js -> Forall (fun kv => dot_free (fst kv)) d) -> forall a b c,
  succeeds (list_events [k_bg] js ++ rest) (M_list, r, g, a, b, c) ->
  exists gs dgs, Forall2 (group_doc w) js gs /\ Forall2 encoded gs dgs /\ exists a' b' c', succeeds rest (M_root_map, r, g, a', b', c').
Proof.
  induction js as [|j js IH]; intros Fd a b c S; cbn [list_events] in S.
  - cbn [app] in S. apply succeeds_step in S as (st & st' & Ef & P & S). pose proof (flags_eq _ _ _ _ _ _ _ Ef) as (M & Fr & Fg & Fa & Fb & Fc).
    unfold d_parse in P. rewrite M in P. change (str_eqb (dotted (rev [k_bg])) k_bg) with true in P. cbv iota in P. apply Ok_inj in P. subst st'.
    exists [], []. split; [constructor|]. split; [constructor|]. exists a, b, c.
    replace (flags _) with (M_root_map, r, g, a, b, c) in S; [exact S|]. unfold flags, set_mode. cbn [d_mode d_root_seen d_groups_seen d_recs_seen d_cert_seen d_list_seen]. congruence.
  - rewrite <- app_assoc in S.
    assert (exists d, j = JDict d) as [d ->].
    { destruct j as [| | | |s|l'|d']; [..|rewrite events_list in S|eauto]; exfalso; cbn [events app] in S;
        apply succeeds_step in S as (st & st' & Ef & P & _); apply flags_eq in Ef as (M & _);
        unfold d_parse in P; rewrite M in P; discriminate. }
    rewrite events_dict in S. cbn [app] in S. apply succeeds_step in S as (st & st' & Ef & P & S). pose proof (flags_eq _ _ _ _ _ _ _ Ef) as (M & Fr & Fg & _).
    unfold d_parse in P. rewrite M in P. change (str_eqb (dotted (rev [k_item; k_bg])) k_bg) with false in P.
    change (str_eqb (dotted (rev [k_item; k_bg])) p_item) with true in P. cbv iota in P. apply Ok_inj in P. subst st'.
    match type of S with succeeds _ (flags ?x) => replace (flags x) with (M_group, r, g, false, false, false) in S end.
    2:{ unfold flags. cbn [d_mode d_root_seen d_groups_seen d_recs_seen d_cert_seen d_list_seen]. congruence. }
    apply back_members in S as (H1 & H2 & H3 & a' & b' & c' & S).
    2:{ apply Fd. now left. }
    cbn [owed] in H1, H2, H3. destruct H1 as (? & O1 & texts & bs & -> & Fb). destruct H2 as (? & O2 & sc & -> & Hc). destruct H3 as (? & O3 & ctexts & cs & -> & Fc).
    destruct (IH (fun d I => Fd d (or_intror I)) _ _ _ S) as (gs & dgs & Fg1 & Fe & Sr).
    assert (exists co, sc = [] /\ co = None \/ sc <> [] /\ exists x, cert_text w sc x /\ co = Some x) as [co Hco].
    { destruct sc as [|s0 sc]; [exists None; auto|]. destruct Hc as [Hc|[x Hc]]; [discriminate|]. exists (Some x). right. split; [discriminate|]. eauto. }
    exists (Group texts co cs :: gs), (DGroup bs co cs :: dgs). split; [|split; [|exact Sr]].
    + constructor; [|exact Fg1]. exists d, sc, ctexts. cbn [gr_texts gr_cert gr_chain]. auto 10.
    + constructor; [|exact Fe]. split; [exact Fb|]. split; reflexivity.
Qed.

Lemma back_root d r : Forall (fun kv => fst kv <> [] /\ dot_free (fst kv)) d ->
  (forall js, In (k_bg, JList js) d -> forall g, In (JDict g) js -> Forall (fun kv => dot_free (fst kv)) g) ->
  forall (gseen : bool) a b c, succeeds (dict_events [] d) (M_root_map, r, gseen, a, b, c) ->
  if gseen then ~ In k_bg (map fst d)
  else exists js gs dgs, once d k_bg (JList js) /\ Forall2 (group_doc w) js gs /\ Forall2 encoded gs dgs.
Proof.
  induction 1 as [|[k v] d [F1 F2] _ IH]; intros Fg gseen a b c S; cbn [dict_events] in S.
  - apply succeeds_step in S as (st & st' & Ef & P & S). pose proof (flags_eq _ _ _ _ _ _ _ Ef) as (M & Fr & Fgs & _).
    unfold d_parse in P. rewrite M in P. change (str_eqb (dotted (rev [])) []) with true in P. cbv iota in P. rewrite Fgs in P.
    destruct gseen; [intros []|discriminate].
  - assert (succeeds (events [k] v ++ dict_events [] d) (M_root_map, r, gseen, a, b, c)) as S0.
    { apply succeeds_step in S as (st & st' & Ef & P & S). pose proof (flags_eq _ _ _ _ _ _ _ Ef) as (M & _).
      unfold d_parse in P. rewrite M in P. change (str_eqb (dotted (rev [])) []) with true in P. cbv iota in P.
      change (Ok st = Ok st') in P. apply Ok_inj in P. subst st'. rewrite Ef in S. exact S. }
    clear S. rename S0 into S. cbn [fst] in F1, F2.
    destruct (list_eq_dec N.eq_dec k k_bg) as [->|Nk].
    + assert (gseen = false /\ exists js, v = JList js /\ succeeds (list_events [k_bg] js ++ dict_events [] d) (M_list, r, true, false, false, false))
        as (-> & js & -> & S').
      { assert (exists e l, events [k_bg] v = (k_bg, e) :: l /\ (e = E_start_map \/ e = E_scalar \/ (exists s, e = E_string s) \/ e = E_start_array /\ exists l', v = JList l' /\ l = list_events [k_bg] l')) as (e & l & Ev & He).
        { destruct v as [| | | |s|l'|d']; [..|rewrite events_list|rewrite events_dict]; cbn [events]; eexists; eexists; (split; [reflexivity|]); eauto 10. }
        change (succeeds (events [k_bg] v ++ dict_events [] d) (M_root_map, r, gseen, a, b, c)) in S. rewrite Ev in S. cbn [app] in S. apply succeeds_step in S as (st & st' & Ef & P & S). pose proof (flags_eq _ _ _ _ _ _ _ Ef) as (M & Fr & Fgs & _).
        unfold d_parse in P. rewrite M in P. change (str_eqb k_bg []) with false in P. change (str_eqb k_bg k_bg) with true in P. cbv iota in P.
        rewrite Fgs in P. destruct He as [->|[->|[(s & ->)|(-> & l' & -> & ->)]]]; try discriminate. destruct gseen; [discriminate|]. cbn [negb] in P.
        apply Ok_inj in P. subst st'. split; [reflexivity|]. exists l'. split; [reflexivity|].
        match type of S with succeeds _ (flags ?x) => replace (flags x) with (M_list, r, true, false, false, false) in S end; [exact S|].
        unfold flags. cbn [d_mode d_root_seen d_groups_seen d_recs_seen d_cert_seen d_list_seen]. now rewrite Fr. }
      apply back_groups in S' as (gs & dgs & F & Fe & a' & b' & c' & S').
      * specialize (IH (fun js I => Fg js (or_intror I)) true _ _ _ S'). cbv iota in IH. exists js, gs, dgs. split; [now apply once_here|]. auto.
      * apply Fg. now left.
    + apply quiet_root in S; try assumption. specialize (IH (fun js I => Fg js (or_intror I)) gseen _ _ _ S). destruct gseen.
      * cbn [map fst]. intros [E|I]; [congruence|now apply IH].
      * destruct IH as (js & gs & dgs & O & H). exists js, gs, dgs. split; [now apply once_cons|exact H].
Qed.

Theorem parsed_doc chunks : plain_names doc -> parse_inc w kind doc n = (chunks, None) -> exists gs dgs, dep_doc w doc gs /\ Forall2 encoded gs dgs.
Proof.
  intros P H. unfold parse_inc in H.
  assert (succeeds (events [] doc) (flags d_init)) as S by (exists d_init, false, chunks; auto).
  assert (exists d, doc = JDict d) as [d Ed].
  { revert S. destruct doc as [| | | |s|l'|d']; [..|rewrite events_list|eauto]; intros S; exfalso; cbn [events app] in S;
      apply succeeds_step in S as (st & st' & Ef & P' & _); apply flags_eq in Ef as (M & _);
      unfold d_parse in P'; rewrite M in P'; discriminate. }
  destruct (P d Ed) as [P1 P2]. rewrite Ed, events_dict in S. apply succeeds_step in S as (st & st' & Ef & P' & S).
  pose proof (flags_eq _ _ _ _ _ _ _ Ef) as (M & Fr & _). unfold d_parse in P'. rewrite M in P'.
  change (str_eqb (dotted (rev [])) []) with true in P'. cbv iota in P'. rewrite Fr in P'. cbn [negb] in P'. apply Ok_inj in P'. subst st'.
  apply back_root in S; [|exact P1|exact P2]. destruct S as (js & gs & dgs & O & F & Fe). exists gs, dgs. split; [|exact Fe].
  exists d, js. auto.
Qed.
End Back.

(** ** The parsers *)

Theorem file_exact w doc n chunks : plain_names doc ->
  parse_inc w P_file doc n = (chunks, None) <->
  exists gs dgs, dep_doc w doc gs /\ Forall2 encoded gs dgs /\ filled dgs <> [] /\ chunks = inc_chunks n dgs.
Proof.
  intros P. split.
  - intros H. destruct (parsed_doc w P_file doc n chunks P H) as (gs & dgs & D & E).
    assert (filled dgs <> []) as NE.
    { intros X. apply (inc_chunks_nil n) in X. rewrite (doc_chunks w P_file doc n gs dgs D P E) in H.
      - rewrite finish_pack0, X in H. discriminate.
      - apply (file_ready w doc n gs dgs D P E). }
    exists gs, dgs. split; [exact D|]. split; [exact E|]. split; [exact NE|].
    rewrite (file_chunks w doc n gs dgs D P E NE) in H. congruence.
  - intros (gs & dgs & D & E & NE & ->). now apply (file_chunks w doc n gs).
Qed.

(** What the stream parser delivers, the file parser delivers, too. *)
Lemma stream_loop w doc n evs : forall d got cs, inc_loop w P_stream doc n evs d got = (cs, None) ->
  forall kind, inc_loop w kind doc n evs d got = (cs, None).
Proof.
  induction evs as [|[p e] evs IH]; intros d got cs H kind; [exact H|]. cbn [inc_loop] in *. destruct (d_parse w d p e) as [d'|]; [|discriminate].
  cbv zeta in *. destruct (d_ready (d_mode d) n d').
  - destruct (needCrt (d_mode d) d'); [discriminate|]. unfold s_cons in *.
    destruct (inc_loop w P_stream doc n evs (snd (getChunk (d_mode d) d')) true) as [cs' o] eqn:E. cbn [fst snd] in H. injection H as <- ->.
    now rewrite (IH _ _ _ E kind).
  - now apply IH.
Qed.

Theorem stream_exact w doc n chunks : plain_names doc -> parse_inc w P_stream doc n = (chunks, None) ->
  exists gs dgs, dep_doc w doc gs /\ Forall2 encoded gs dgs /\ filled dgs <> [] /\ chunks = inc_chunks n dgs.
Proof. intros P H. apply file_exact; [exact P|]. now apply (stream_loop w doc n _ _ _ _ H P_file). Qed.
