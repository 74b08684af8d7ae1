(** verifyDEP accepts exactly the valid DEPs. *)
From Verif Require Import PyBase World Codec PyFloat PyTime Algo Receipt ListFacts CodecFacts CodecFacts2 SpecReceipt ReceiptFacts
  RoundTrip DepBase Json Pem KeyStore VerifyReceipt State DepParser Verify SpecDep SpecCluster VerifyFacts StepFacts
  DepFacts ClusterFacts.
From Coq Require Import Lia.
Open Scope N_scope.
Open Scope py_scope.

Lemma mapM_Ok {A B} (f : A -> result B) l l' : mapM f l = Ok l' <-> Forall2 (fun x y => f x = Ok y) l l'.
Proof.
  revert l'. induction l as [|x l IH]; intros l'; cbn [mapM].
  - split.
    + intros H. apply Ok_inj in H. subst. constructor.
    + intros H. inversion H. reflexivity.
  - rewrite bind_Ok. split.
    + intros (y & Hy & H). apply bind_Ok in H as (ys & Hys & H). apply Ok_inj in H. subst. constructor; [assumption|].
      now apply IH.
    + intros H. inversion H as [|? y ? ys Hy Hys]. subst. exists y. split; [assumption|]. apply IH in Hys.
      rewrite Hys. reflexivity.
Qed.

(** ** Texts of receipts *)

Lemma seg_ascii s b : seg_decodes s b -> Forall (fun c => c < 128) s.
Proof.
  intros [_ H].
  assert (Forall (fun c => c < 128) (restoreb64padding s)) as A.
  { assert (exists b, urlsafe_b64decode (restoreb64padding s) = Ok b) as E by eauto.
    apply urlsafe_b64decode_accepts in E as (d & k & nl & E & Hd & _ & Hn & _). rewrite E. now apply b64url_parts_ascii. }
  unfold restoreb64padding in A. destruct (_ <? 4)%nat; [|exact A]. now apply Forall_app in A.
Qed.

Lemma reads_ascii w s r : reads w s r -> Forall (fun c => c < 128) s.
Proof.
  intros (f & sg & (h & p & hb & pb & gb & -> & H & _ & P & _ & G & _) & _).
  apply seg_ascii in H, P, G. apply Forall_app; split; [assumption|]. constructor; [reflexivity|].
  apply Forall_app; split; [assumption|]. constructor; [reflexivity|assumption].
Qed.

Lemma reads_encodes w s r : reads w s r -> utf8_encode s = Ok s.
Proof. intros H. apply utf8_encode_ascii. now apply reads_ascii in H. Qed.

(** ** Groups of a DEP as the dictionary parser sees them *)

Lemma iter_elements j l bs :
  iter j = Ok l -> mapM shrinkJ l = Ok bs ->
  exists texts, elements j texts /\ Forall2 (fun t b => utf8_encode t = Ok b) texts bs.
Proof.
  intros I M.
  assert (forall l, mapM shrinkJ l = Ok bs ->
            exists ts, l = map JStr ts /\ Forall2 (fun t b => utf8_encode t = Ok b) ts bs) as T.
  { clear. intros l M. apply mapM_Ok in M. induction M as [|x b l bs H M IH].
    - exists []. split; [reflexivity|constructor].
    - destruct IH as (ts & -> & F). destruct x; try discriminate. exists (s :: ts). split; [reflexivity|].
      now constructor. }
  destruct (T l M) as (ts & -> & F). exists ts. split; [|exact F].
  destruct j; cbn [iter] in I; try discriminate; apply Ok_inj in I.
  - right. left. exists s. split; [reflexivity|]. revert ts I F M. clear. intros ts I _ _. revert ts I.
    induction s as [|c s IH]; intros [|t ts] I; try discriminate; [reflexivity|]. cbn [map] in *.
    injection I as <- I. f_equal. auto.
  - left. now subst.
  - right. right. exists d. split; [reflexivity|]. revert ts I F M. clear. intros ts I _ _. revert ts I.
    induction d as [|c s IH]; intros [|t ts] I; try discriminate; [reflexivity|]. cbn [map] in *.
    injection I as <- I. f_equal. auto.
Qed.

Lemma elements_iter j texts bs :
  elements j texts -> Forall2 (fun t b => utf8_encode t = Ok b) texts bs ->
  exists l, iter j = Ok l /\ mapM shrinkJ l = Ok bs.
Proof.
  intros E F. exists (map JStr texts). split.
  - destruct E as [->|[(s & -> & ->)|(d & -> & ->)]]; cbn [iter]; [reflexivity| |]; now rewrite map_map.
  - apply mapM_Ok. clear E. induction F as [|t b ts bs H F IH]; [constructor|]. cbn [map]. constructor; [exact H|exact IH].
Qed.

Lemma chain_texts w l chain :
  mapM (parseDEPCertJ w) l = Ok chain <-> exists ts, l = map JStr ts /\ Forall2 (cert_text w) ts chain.
Proof.
  rewrite mapM_Ok. split.
  - induction 1 as [|x c l chain H M IH].
    + exists []. split; [reflexivity|constructor].
    + destruct IH as (ts & -> & F). destruct x; try discriminate. exists (s :: ts). split; [reflexivity|].
      now constructor.
  - intros (ts & -> & F). induction F as [|t b ts bs H F IH]; [constructor|]. cbn [map]. constructor; [exact H|exact IH].
Qed.

Lemma opt_cert_spec w s o :
  opt_cert w (JStr s) = Ok o <->
  (s = [] /\ o = None \/ s <> [] /\ exists c, cert_text w s c /\ o = Some c).
Proof.
  unfold opt_cert. destruct s as [|a s].
  - split.
    + intros H. apply Ok_inj in H. auto.
    + intros [[_ ->]|[N _]]; [reflexivity|congruence].
  - rewrite bind_Ok. cbn [parseDEPCertJ]. unfold cert_text. split.
    + intros (c & H & E). apply Ok_inj in E. right. split; [discriminate|]. eauto.
    + intros [[N _]|(_ & c & H & ->)]; [discriminate|]. eauto.
Qed.

(** The group tuple for a group *)
Definition tuple_for (g : group) (dg : dgroup) : Prop :=
  Forall2 (fun t b => utf8_encode t = Ok b) (gr_texts g) (g_recs dg)
  /\ g_cert dg = gr_cert g /\ g_chain dg = gr_chain g.

Lemma parse_group_spec w j dg :
  (do p <- parseDEPGroup w j;
   do recs <- mapM shrinkJ (fst (fst p));
   Ok (DGroup recs (snd (fst p)) (snd p))) = Ok dg <->
  exists g, group_is w j g /\ tuple_for g dg.
Proof.
  rewrite bind_Ok. split.
  - intros ([[l o] chain] & P & H). cbn [fst snd] in H. apply bind_Ok in H as (bs & M & H). apply Ok_inj in H. subst dg.
    unfold parseDEPGroup in P. destruct j as [| | | | | |d]; try discriminate.
    destruct (dict_get d k_recs) as [jr|] eqn:E1; [|discriminate].
    destruct (dict_get d k_cert) as [jc|] eqn:E2; [|discriminate].
    destruct (dict_get d k_certs) as [jl|] eqn:E3; [|discriminate].
    apply bind_Ok in P as (l' & I & P). destruct jc as [| | | |sc| |]; try discriminate.
    destruct jl as [| | | | |ll|]; try discriminate. apply bind_Ok in P as (o' & O & P).
    apply bind_Ok in P as (ch & C & P). apply Ok_inj in P. injection P as <- <- <-.
    destruct (iter_elements _ _ _ I M) as (texts & El & F).
    apply chain_texts in C as (ts & -> & Fc).
    exists (Group texts o' ch). split.
    + exists d, jr, sc, ts. cbn [gr_texts gr_cert gr_chain]. apply opt_cert_spec in O. auto 10.
    + split; [exact F|]. split; reflexivity.
  - intros (g & (d & jr & sc & chain & -> & E1 & El & E2 & O & E3 & C) & (F & Ec & Eh)).
    apply opt_cert_spec in O. destruct (elements_iter _ _ _ El F) as (l & I & M).
    exists (l, gr_cert g, gr_chain g). split.
    + unfold parseDEPGroup. rewrite E1, E2, E3, I. cbn [bind]. rewrite O. cbn [bind].
      assert (mapM (parseDEPCertJ w) (map JStr chain) = Ok (gr_chain g)) as -> by (apply chain_texts; eauto).
      reflexivity.
    + cbn [fst snd]. rewrite M. cbn [bind]. rewrite <- Ec, <- Eh. now destruct dg.
Qed.

Definition filled (dgs : list dgroup) : list dgroup :=
  filter (fun g => match g_recs g with [] => false | _ => true end) dgs.

Lemma gen_groups_spec w js chunks :
  gen_groups w js = (chunks, None) <->
  exists gs dgs, Forall2 (group_is w) js gs /\ Forall2 tuple_for gs dgs /\ chunks = map (fun g => [g]) (filled dgs).
Proof.
  revert chunks. induction js as [|j js IH]; intros chunks; cbn [gen_groups].
  - split.
    + intros H. injection H as <-. exists [], []. repeat split; constructor.
    + intros (gs & dgs & F & F' & ->). inversion F. subst. inversion F'. reflexivity.
  - destruct (do p <- parseDEPGroup w j; do recs <- mapM shrinkJ (fst (fst p)); Ok (DGroup recs (snd (fst p)) (snd p)))
      as [dg|] eqn:P.
    + assert (exists g, group_is w j g /\ tuple_for g dg) as Pg by now apply parse_group_spec.
      split.
      * intros H. destruct Pg as (g & G & T).
        destruct (g_recs dg) as [|b bs] eqn:R.
        -- apply IH in H as (gs & dgs & F & F' & ->). exists (g :: gs), (dg :: dgs).
           split; [now constructor|]. split; [now constructor|]. unfold filled. cbn [filter]. now rewrite R.
        -- unfold s_cons in H. destruct (gen_groups w js) as [cs e] eqn:E. cbn [fst snd] in H. injection H as <- ->.
           destruct (proj1 (IH cs) eq_refl) as (gs & dgs & F & F' & ->). exists (g :: gs), (dg :: dgs).
           split; [now constructor|]. split; [now constructor|]. unfold filled. cbn [filter]. now rewrite R.
      * intros (gs & dgs & F & F' & ->). inversion F as [|? g ? gs' G Fg]. subst.
        inversion F' as [|? dg' ? dgs' T Fd]. subst.
        assert (dg' = dg) as ->.
        { assert (exists g, group_is w j g /\ tuple_for g dg') as Pg' by eauto.
          apply parse_group_spec in Pg'. rewrite P in Pg'. now apply Ok_inj in Pg'. }
        assert (gen_groups w js = (map (fun g => [g]) (filled dgs'), None)) as E by (apply IH; eauto).
        unfold filled. cbn [filter]. destruct (g_recs dg) as [|b bs]; rewrite E; reflexivity.
    + split; [discriminate|]. intros (gs & dgs & F & F' & ->). inversion F as [|? g ? gs' G Fg]. subst.
      inversion F' as [|? dg' ? dgs' T Fd]. subst.
      assert (exists g, group_is w j g /\ tuple_for g dg') as Pg' by eauto.
      apply parse_group_spec in Pg'. congruence.
Qed.

Lemma parse_dict_spec w dep chunks :
  parse_dict w 1 dep 0 = (chunks, None) <->
  exists gs dgs, dep_is w dep gs /\ Forall2 tuple_for gs dgs
    /\ chunks = map (fun g => [g]) (filled dgs) /\ filled dgs <> [].
Proof.
  unfold parse_dict, dep_is. split.
  - intros H. destruct dep as [| | | | | |d]; try discriminate.
    destruct (dict_get d k_bg) as [jb|] eqn:E; [|discriminate].
    destruct jb as [| | | | |[|j js]|]; try discriminate.
    cbn [Nat.ltb Nat.leb andb] in H. unfold groupChunkGen in H. cbn [Nat.eqb] in H.
    destruct (gen_groups w (j :: js)) as [cs e] eqn:G.
    assert ((cs, e) = (chunks, None) /\ cs <> []) as [H' NE].
    { destruct cs, e; try discriminate; auto; split; congruence. }
    injection H' as -> ->. apply gen_groups_spec in G as (gs & dgs & F & F' & ->).
    exists gs, dgs. split; [eauto|]. split; [exact F'|]. split; [reflexivity|]. intros X. now rewrite X in NE.
  - intros (gs & dgs & (d & js & -> & E & F) & F' & -> & NE). rewrite E.
    destruct js as [|j js].
    { inversion F. subst. inversion F'. subst. now contradiction NE. }
    cbn [Nat.ltb Nat.leb andb]. unfold groupChunkGen. cbn [Nat.eqb].
    assert (gen_groups w (j :: js) = (map (fun g => [g]) (filled dgs), None)) as -> by (apply gen_groups_spec; eauto).
    destruct (filled dgs); [congruence|]. reflexivity.
Qed.

(** ** The loop over groups *)

Lemma dep_chunks_single w ks key ps l : forall one reg u,
  dep_chunks w ks key ps (map (fun g => [g]) l) one reg u = dep_groups w ks key ps l one reg u.
Proof.
  induction l as [|g l IH]; intros one reg u; [reflexivity|]. cbn [map dep_chunks List.length Nat.eqb negb dep_groups].
  destruct (match one with Some true => false | _ => true end); [|reflexivity].
  destruct (match g_cert g with Some c => _ | None => _ end) as [vo|]; [|reflexivity]. cbn [bind].
  destruct (verifyGroup w (g_recs g) (fst vo) key ps reg u) as [ru|]; [|reflexivity]. cbn [bind fst snd].
  now rewrite IH.
Qed.

Definition vg (ks : keystore) (g : dgroup) : vgroup := (g_recs g, verifier_of ks (g_cert g)).

Definition certs_ok (w : world) (ks : keystore) (l : list dgroup) : Prop :=
  Forall (fun g => exists c, g_cert g = Some c /\ trusted w ks c (g_chain g)) l.

Lemma dep_groups_false w ks key ps l : hash_ok w -> forall reg u one' reg' u',
  dep_groups w ks key ps l (Some false) reg u = Ok (one', reg', u') <->
  certs_ok w ks l /\ verifyGroupsWithVerifiers w (map (vg ks) l) key ps reg u = Ok (reg', u') /\ one' = Some false.
Proof.
  intros HO. induction l as [|g l IH]; intros reg u one' reg' u'; cbn [dep_groups map verifyGroupsWithVerifiers vg].
  - split.
    + intros H. apply Ok_inj in H. injection H as <- <- <-. repeat split. constructor.
    + intros (_ & H & ->). apply Ok_inj in H. now injection H as <- <-.
  - unfold certs_ok in *. rewrite Forall_cons_iff. destruct (g_cert g) as [c|] eqn:C; cbn [bind verifier_of].
    + destruct (verifyCert w c (g_chain g) ks) as [[]|] eqn:V; cbn [bind fst snd].
      * apply verifyCert_spec in V; [|assumption]. rewrite !bind_Ok. split.
        -- intros (ru & G & H). apply IH in H as (A & B & ->). split; [split; eauto|]. split; [|reflexivity]. eauto.
        -- intros ((_ & A) & (ru & G & B) & ->). exists ru. split; [assumption|]. apply IH. auto.
      * split; [discriminate|]. intros (((c' & E & T) & _) & _). injection E as <-.
        apply verifyCert_spec in T; [|assumption]. congruence.
    + split; [discriminate|]. intros (((c' & E & T) & _) & _). discriminate.
Qed.

Lemma dep_groups_true w ks key ps l reg u one' reg' u' :
  dep_groups w ks key ps l (Some true) reg u = Ok (one', reg', u') <->
  l = [] /\ one' = Some true /\ reg' = reg /\ u' = u.
Proof.
  destruct l; cbn [dep_groups].
  - split.
    + intros H. apply Ok_inj in H. injection H as <- <- <-. auto.
    + now intros (_ & -> & -> & ->).
  - split; [discriminate|]. now intros [H _].
Qed.

Lemma dep_groups_none w ks key ps l reg u reg' u' : hash_ok w ->
  (exists one', dep_groups w ks key ps l None reg u = Ok (one', reg', u')) <->
  (certs_ok w ks l \/ exists g, l = [g] /\ g_cert g = None)
  /\ verifyGroupsWithVerifiers w (map (vg ks) l) key ps reg u = Ok (reg', u').
Proof.
  intros HO. destruct l as [|g l]; cbn [dep_groups map verifyGroupsWithVerifiers vg].
  - split.
    + intros (one' & H). apply Ok_inj in H. injection H as <- <- <-. split; [left; constructor|reflexivity].
    + intros (_ & H). apply Ok_inj in H. injection H as <- <-. eauto.
  - destruct (g_cert g) as [c|] eqn:C; cbn [bind verifier_of].
    + destruct (verifyCert w c (g_chain g) ks) as [[]|] eqn:V; cbn [bind fst snd].
      * apply verifyCert_spec in V; [|assumption]. rewrite bind_Ok. split.
        -- intros (one' & H). apply bind_Ok in H as (ru & G & H). apply dep_groups_false in H as (A & B & ->); [|assumption].
           split; [left; constructor; eauto|eauto].
        -- intros ([A|(x & E & N)] & ru & G & B).
           ++ apply Forall_cons_iff in A as [_ A]. exists (Some false). apply bind_Ok. exists ru. split; [assumption|].
              apply dep_groups_false; auto.
           ++ injection E as <- _. congruence.
      * split; [intros (? & ?); discriminate|]. intros ([A|(x & E & N)] & _).
        -- apply Forall_cons_iff in A as [(c' & E & T) _]. rewrite C in E. injection E as <-.
           apply verifyCert_spec in T; [|assumption]. congruence.
        -- injection E as <- _. congruence.
    + cbn [fst snd]. rewrite bind_Ok. split.
      * intros (one' & H). apply bind_Ok in H as (ru & G & H). apply dep_groups_true in H as (-> & -> & -> & ->).
        split; [eauto|]. exists ru. split; [assumption|]. now destruct ru.
      * intros ([A|(x & E & N)] & ru & G & B).
        -- apply Forall_cons_iff in A as [(c' & E & T) _]. congruence.
        -- injection E as <- ->. exists (Some true). apply bind_Ok. exists ru. split; [assumption|].
           apply dep_groups_true. cbn [map verifyGroupsWithVerifiers] in B. apply Ok_inj in B. injection B as <- <-. auto.
Qed.

(** ** From tuples to texts *)

Lemma tuple_filled g dg : tuple_for g dg ->
  match gr_texts g with [] => false | _ => true end = match g_recs dg with [] => false | _ => true end.
Proof. intros (F & _). destruct F; reflexivity. Qed.

Lemma filled_occupied gs dgs : Forall2 tuple_for gs dgs -> Forall2 tuple_for (occupied gs) (filled dgs).
Proof.
  induction 1 as [|g dg gs dgs T F IH]; [constructor|]. unfold occupied, filled. cbn [filter].
  rewrite (tuple_filled _ _ T). destruct (g_recs dg); [exact IH|]. now constructor.
Qed.

Lemma dep_texts_occupied ks gs : dep_texts ks (occupied gs) = dep_texts ks gs.
Proof.
  unfold dep_texts, occupied. induction gs as [|g gs IH]; [reflexivity|]. cbn [filter flat_map].
  destruct (gr_texts g) as [|t ts] eqn:E; [exact IH|]. cbn [flat_map]. now rewrite E, IH.
Qed.

Lemma flat_texts ks gs dgs : Forall2 tuple_for gs dgs ->
  Forall2 (fun t b => utf8_encode (fst t) = Ok (fst b) /\ snd t = snd b) (dep_texts ks gs) (flat (map (vg ks) dgs)).
Proof.
  induction 1 as [|g dg gs dgs (F & C & _) _ IH]; [constructor|].
  unfold dep_texts, flat in *. cbn [flat_map map vg fst snd]. apply Forall2_app; [|exact IH]. rewrite C.
  clear -F. induction F as [|t b ts bs H F IH]; [constructor|]. cbn [map]. constructor; [|exact IH]. split; [exact H|reflexivity].
Qed.

Lemma items_texts w ts bs l :
  Forall2 (fun (t : str * verifier) (b : bytes * verifier) => utf8_encode (fst t) = Ok (fst b) /\ snd t = snd b) ts bs ->
  Forall2 (item_of w) bs l <-> Forall2 (text_item w) ts l.
Proof.
  intros F. revert l. induction F as [|t b ts bs (E & V) F IH]; intros l.
  - split; intros H; inversion H; constructor.
  - assert (forall i, item_of w b i <-> text_item w t i) as I.
    { intros i. unfold item_of, text_item. rewrite (utf8_decode_encode _ _ E), V. split.
      - intros (D & R & ->). apply Ok_inj in D. rewrite D. auto.
      - intros (-> & R & ->). auto. }
    split; intros H; inversion H; subst; (constructor; [now apply I|now apply IH]).
Qed.

Lemma encode_all w ts l : Forall2 (text_item w) ts l ->
  Forall (fun t => utf8_encode (fst t) = Ok (fst t)) ts.
Proof. induction 1 as [|t i ts l (_ & R & _) F IH]; constructor; [|assumption]. now apply reads_encodes in R. Qed.

Lemma tuples_exist w ks gs l : Forall2 (text_item w) (dep_texts ks gs) l ->
  exists dgs, Forall2 tuple_for gs dgs.
Proof.
  intros H. apply encode_all in H. exists (map (fun g => DGroup (gr_texts g) (gr_cert g) (gr_chain g)) gs).
  induction gs as [|g gs IH]; [constructor|]. unfold dep_texts in H. cbn [flat_map] in H. apply Forall_app in H as [H1 H2].
  cbn [map]. constructor; [|now apply IH]. split; [|split; reflexivity]. cbn [g_recs]. rewrite Forall_map in H1.
  cbn [fst] in H1. clear -H1. induction H1; constructor; assumption.
Qed.

Lemma trust_tuples w ks gs dgs : Forall2 tuple_for gs dgs ->
  (certs_ok w ks dgs \/ exists g, dgs = [g] /\ g_cert g = None) <-> trust_rule w ks gs.
Proof.
  intros F. unfold trust_rule, certs_ok.
  assert (Forall (fun g => exists c, g_cert g = Some c /\ trusted w ks c (g_chain g)) dgs <->
          Forall (fun g => exists c, gr_cert g = Some c /\ trusted w ks c (gr_chain g)) gs) as ->.
  { induction F as [|g dg gs dgs (_ & C & H) F IH]; [split; constructor|]. rewrite !Forall_cons_iff, IH, C, H. reflexivity. }
  assert ((exists g, dgs = [g] /\ g_cert g = None) <-> exists g, gs = [g] /\ gr_cert g = None) as ->; [|reflexivity].
  split.
  - intros (g & -> & N). inversion F as [|g0 ? gs' ? (_ & C & _) F']. subst. inversion F'. subst. exists g0. split; [reflexivity|congruence].
  - intros (g & -> & N). inversion F as [|? g0 ? ? (_ & C & _) F']. subst. inversion F'. subst. exists g0. split; [reflexivity|congruence].
Qed.

Lemma occupied_nonempty ks gs : occupied gs <> [] <-> dep_texts ks gs <> [].
Proof.
  rewrite <- (dep_texts_occupied ks gs). unfold occupied, dep_texts. induction gs as [|g gs IH]; cbn [filter]; [cbn [flat_map]; tauto|].
  destruct (gr_texts g) as [|t ts] eqn:E; [exact IH|]. cbn [flat_map]. rewrite E. split; intros _; discriminate.
Qed.

Lemma Forall2_nonempty {A B} (R : A -> B -> Prop) l l' : Forall2 R l l' -> l <> [] <-> l' <> [].
Proof. intros F. destruct F; split; congruence. Qed.

(** dep_body is verification of the sequence of receipts in the DEP. *)
Theorem dep_body_spec w ks key dep ps reg u reg' u' : hash_ok w ->
  dep_body w ks key (parse_dict w 1 dep 0) (ps, reg, u) = Ok (reg', u') <->
  exists items p, dep_ok w ks dep items
    /\ past_of w reg p
    /\ valid_sequence w key ps reg u p items
    /\ register_after key reg p items reg'
    /\ u' = used_after u items.
Proof.
  intros HO. unfold dep_body. rewrite bind_Ok. split.
  - intros ([[one r] uu] & D & H). apply bind_Ok in H as ([] & Fi & H). apply Ok_inj in H. cbn [fst snd] in H.
    injection H as -> ->. destruct (parse_dict w 1 dep 0) as [chunks e] eqn:P. unfold finished in Fi. cbn [fst snd] in Fi, D.
    destruct e; [discriminate|]. apply parse_dict_spec in P as (gs & dgs & I & T & -> & NE).
    rewrite dep_chunks_single in D.
    assert (exists one', dep_groups w ks key ps (filled dgs) None reg u = Ok (one', reg', u')) as D' by eauto.
    apply dep_groups_none in D' as [C G]; [|assumption].
    apply groups_spec in G as (p & items & P & F & V & R & U).
    2:{ destruct (filled dgs); [congruence|discriminate]. }
    2:{ apply Forall_map, Forall_forall. intros g _. unfold vg, proper, verifier_of. cbn [snd]. destruct (g_cert g); eauto. }
    apply filled_occupied in T. rewrite (items_texts w _ _ _ (flat_texts ks _ _ T)) in F.
    rewrite dep_texts_occupied in F. exists items, p. split; [|auto]. exists gs. split; [exact I|].
    split; [now apply (trust_tuples w ks _ _ T)|]. split; [exact F|].
    apply (Forall2_nonempty _ _ _ F). apply occupied_nonempty. now apply (Forall2_nonempty _ _ _ T).
  - intros (items & p & (gs & I & Tr & F & NE) & P & V & R & U).
    destruct (tuples_exist _ _ _ _ F) as (dgs & T).
    assert (Forall2 tuple_for (occupied gs) (filled dgs)) as T' by now apply filled_occupied.
    assert (filled dgs <> []) as NF.
    { apply (Forall2_nonempty _ _ _ T'). apply (occupied_nonempty ks). now apply (Forall2_nonempty _ _ _ F). }
    assert (parse_dict w 1 dep 0 = (map (fun g => [g]) (filled dgs), None)) as -> by (apply parse_dict_spec; eauto 10).
    cbn [fst snd]. rewrite dep_chunks_single.
    assert (verifyGroupsWithVerifiers w (map (vg ks) (filled dgs)) key ps reg u = Ok (reg', u')) as G.
    { apply groups_spec.
      - destruct (filled dgs); [congruence|discriminate].
      - apply Forall_map, Forall_forall. intros g _. unfold vg, proper, verifier_of. cbn [snd]. destruct (g_cert g); eauto.
      - exists p, items. split; [exact P|]. split; [|auto].
        rewrite (items_texts w _ _ _ (flat_texts ks _ _ T')), dep_texts_occupied. exact F. }
    assert (exists one', dep_groups w ks key ps (filled dgs) None reg u = Ok (one', reg', u')) as (one' & D).
    { apply dep_groups_none; [assumption|]. split; [|exact G]. now apply (trust_tuples w ks _ _ T'). }
    exists (one', reg', u'). split; [exact D|]. reflexivity.
Qed.

Theorem verifyDEP_spec w dep ks key c idx c' : hash_ok w ->
  verifyDEP w dep ks key c idx = (c', None) <->
  exists before reg after reg' p items,
    selects c idx before reg after
    /\ dep_ok w ks dep items
    /\ past_of w reg p
    /\ valid_sequence w key (start_of_last before) reg (c_used c) p items
    /\ register_after key reg p items reg'
    /\ c' = Cluster (before ++ reg' :: after) (used_after (c_used c) items).
Proof.
  intros HO. unfold verifyDEP. rewrite with_register_Ok. split.
  - intros (b & r & a & reg' & u' & S & B & ->). apply dep_body_spec in B as (items & p & D & P & V & R & ->); [|assumption].
    exists b, r, a, reg', p, items. auto 10.
  - intros (b & r & a & reg' & p & items & S & D & P & V & R & ->).
    exists b, r, a, reg', (used_after (c_used c) items). split; [exact S|]. split; [|reflexivity].
    apply dep_body_spec; [assumption|]. exists items, p. auto.
Qed.
