(** The dictionary based DEP parser. *)
From Coq Require Import Lia ZifyClasses ZifyNat ZifyBool.
From Verif Require Import PyBase World Codec Algo Receipt Json Pem DepBase DepParser ListFacts SpecReceipt ReceiptFacts KeyStore
  VerifyReceipt State Verify SpecDep SpecCluster SpecChunks AcceptFacts ChunkFacts.
Open Scope N_scope.
Open Scope py_scope.
Local Ltac Zify.zify_post_hook ::= Z.div_mod_to_equations.

Lemma encoded_tuple g dg : encoded g dg <-> tuple_for g dg.
Proof. reflexivity. Qed.

Lemma gen_recs_ok n c ch recs bs : (1 <= n)%nat -> mapM shrinkJ recs = Ok bs -> forall chunk_ nextrecs,
  exists len,
  gen_recs n c ch recs chunk_ (size chunk_ + List.length nextrecs) nextrecs =
  (fst (fill n c ch bs chunk_ nextrecs), Ok (fst (snd (fill n c ch bs chunk_ nextrecs)), len, snd (snd (fill n c ch bs chunk_ nextrecs))))
  /\ len = (size (fst (snd (fill n c ch bs chunk_ nextrecs))) + List.length (snd (snd (fill n c ch bs chunk_ nextrecs))))%nat.
Proof.
  intros Hn M. apply mapM_Ok in M. induction M as [|j b recs bs H M IH]; intros chunk_ nextrecs; cbn [gen_recs fill].
  - eexists. split; reflexivity.
  - rewrite H. cbv zeta. rewrite app_length. cbn [List.length].
    replace (S (size chunk_ + List.length nextrecs)) with (size chunk_ + (List.length nextrecs + 1))%nat by lia.
    destruct (n <=? size chunk_ + (List.length nextrecs + 1))%nat.
    + destruct (IH [] []) as (len & E & L). rewrite size_nil in E. cbn [List.length Nat.add] in E. rewrite E. cbn [fst snd]. eauto.
    + destruct (IH chunk_ (nextrecs ++ [b])) as (len & E & L). rewrite app_length in E. cbn [List.length] in E. rewrite E. eauto.
Qed.

Lemma gen_recs_err n c ch recs e : mapM shrinkJ recs = Err e -> forall chunk_ len nextrecs,
  exists done e', gen_recs n c ch recs chunk_ len nextrecs = (done, Err e').
Proof.
  induction recs as [|j recs IH]; cbn [mapM]; [discriminate|]. intros H chunk_ len nextrecs. cbn [gen_recs].
  destruct (shrinkJ j) as [b|]; [|eauto]. cbn [bind] in H. destruct (mapM shrinkJ recs) as [|e'] eqn:M; [discriminate|].
  cbn [bind] in H. cbv zeta. destruct (n <=? S len)%nat; [|eauto]. destruct (IH H [] 0%nat []) as (d & e2 & ->). cbn [fst snd]. eauto.
Qed.

Definition full (l : list dgroup) : Prop := Forall (fun g => g_recs g <> []) l.

Lemma full_size l : full l -> (0 <? size l)%nat = match l with [] => false | _ => true end.
Proof.
  intros F. destruct F as [|g l H F]; [reflexivity|]. rewrite size_cons. destruct (g_recs g); [congruence|]. reflexivity.
Qed.

Lemma fill_full n c ch bs : forall chunk_ recs, full chunk_ -> full (fst (snd (fill n c ch bs chunk_ recs))).
Proof.
  induction bs as [|b bs IH]; intros chunk_ recs F; cbn [fill]; [exact F|].
  destruct (n <=? _)%nat; [|now apply IH]. cbn [fst snd]. apply IH. constructor.
Qed.

Lemma close_full c ch p : full (fst p) -> full (close_group c ch p).
Proof.
  intros F. unfold close_group. destruct p as [a [|b r]]; cbn [fst snd] in *; [exact F|]. apply Forall_app. split; [exact F|].
  constructor; [|constructor]. cbn [g_recs]. discriminate.
Qed.

Lemma size_close c ch p : size (close_group c ch p) = (size (fst p) + List.length (snd p))%nat.
Proof.
  unfold close_group. destruct p as [a [|b r]]; cbn [fst snd]; [cbn [List.length]; lia|]. rewrite size_app, size_cons, size_nil. cbn [g_recs List.length]. lia.
Qed.

Lemma gen_chunks_spec w n js chunks : (1 <= n)%nat -> forall chunk_, full chunk_ ->
  gen_chunks w n js chunk_ (size chunk_) = (chunks, None) <->
  exists gs dgs, Forall2 (group_is w) js gs /\ Forall2 tuple_for gs dgs /\ chunks = finish (pack n dgs chunk_).
Proof.
  intros Hn. revert chunks. induction js as [|j js IH]; intros chunks chunk_ Fu; cbn [gen_chunks].
  - rewrite full_size by exact Fu. unfold finish, s_cons, s_end. split.
    + intros H. exists [], []. split; [constructor|]. split; [constructor|]. cbn [pack fst snd app]. destruct chunk_; cbn [fst snd] in H; injection H as <-; reflexivity.
    + intros (gs & dgs & F & F' & ->). inversion F; subst. inversion F'; subst. cbn [pack fst snd app]. destruct chunk_; reflexivity.
  - split.
    + destruct (parseDEPGroup w j) as [[[recs c] ch]|] eqn:P; [|discriminate]. intros H.
      destruct (mapM shrinkJ recs) as [bs|] eqn:M.
      * destruct (gen_recs_ok n c ch recs bs Hn M chunk_ []) as (len & E & L). cbn [List.length] in E. rewrite Nat.add_0_r in E.
        rewrite E in H. set (x := fill n c ch bs chunk_ []) in *. cbv zeta in H.
        assert (match snd (snd x) with [] => fst (snd x) | _ => fst (snd x) ++ [DGroup (snd (snd x)) c ch] end = close_group c ch (snd x)) as Ec.
        { unfold close_group. destruct (snd (snd x)); reflexivity. }
        rewrite Ec in H. rewrite L, <- (size_close c ch) in H.
        destruct (gen_chunks w n js (close_group c ch (snd x)) (size (close_group c ch (snd x)))) as [cs e] eqn:G. cbn [fst snd] in H.
        injection H as <- ->. apply IH in G as (gs & dgs & F & F' & ->).
        2:{ apply close_full, fill_full, Fu. }
        assert (exists g, group_is w j g /\ tuple_for g (DGroup bs c ch)) as (g & G & T).
        { apply parse_group_spec. rewrite P. cbn [bind fst snd]. rewrite M. reflexivity. }
        exists (g :: gs), (DGroup bs c ch :: dgs). split; [now constructor|]. split; [now constructor|].
        cbn [pack g_recs g_cert g_chain]. fold x. unfold finish. cbn [fst snd]. now rewrite app_assoc.
      * destruct (gen_recs_err n c ch recs _ M chunk_ (size chunk_) []) as (d & e' & E). rewrite E in H. discriminate.
    + intros (gs & dgs & F & F' & ->). inversion F as [|? g ? gs' G Fg]; subst. inversion F' as [|? dg ? dgs' T Fd]; subst.
      assert (exists g, group_is w j g /\ tuple_for g dg) as X by eauto. apply parse_group_spec in X.
      apply bind_Ok in X as ([[recs c] ch] & P & X). cbn [fst snd] in X. apply bind_Ok in X as (bs & M & X). apply Ok_inj in X. subst dg.
      rewrite P. destruct (gen_recs_ok n c ch recs bs Hn M chunk_ []) as (len & E & L). cbn [List.length] in E. rewrite Nat.add_0_r in E.
      rewrite E. cbn [pack g_recs g_cert g_chain]. set (x := fill n c ch bs chunk_ []) in *. cbv zeta.
      assert (match snd (snd x) with [] => fst (snd x) | _ => fst (snd x) ++ [DGroup (snd (snd x)) c ch] end = close_group c ch (snd x)) as ->.
      { unfold close_group. destruct (snd (snd x)); reflexivity. }
      rewrite L, <- (size_close c ch).
      assert (gen_chunks w n js (close_group c ch (snd x)) (size (close_group c ch (snd x)))
              = (finish (pack n dgs' (close_group c ch (snd x))), None)) as ->.
      { apply IH; [apply close_full, fill_full, Fu|]. eauto. }
      cbn [fst snd]. unfold finish. cbn [fst snd]. now rewrite app_assoc.
Qed.

(** The chunk size parse uses *)
Definition effective_size (nparts : nat) (dep : json) (n : nat) : nat :=
  match dep with
  | JDict d => if ((1 <? nparts) && (n =? 0))%nat then ceil_div (totalRecsInDictDEP d) nparts else n
  | _ => n
  end.

(** Group by group, or with so many receipts *)
Definition dict_chunks (n : nat) (dgs : list dgroup) : list chunk :=
  match n with
  | O => map (fun g => [g]) (filter has_receipts dgs)
  | _ => chunks_of n dgs
  end.

Lemma filter_filled dgs : filter has_receipts dgs = filled dgs.
Proof. reflexivity. Qed.

Lemma dict_chunks_nil n dgs : dict_chunks n dgs = [] <-> filled dgs = [].
Proof.
  unfold dict_chunks. destruct n as [|n].
  - rewrite filter_filled. destruct (filled dgs); split; intros; [reflexivity..|discriminate|discriminate].
  - assert (1 <= S n)%nat as Hn by lia. destruct (chunks_deliver (S n) dgs Hn) as (A & _ & _). rewrite <- filter_filled. split.
    + intros E. rewrite E in A. cbn [flat_map] in A. rewrite <- stamped_filter in A.
      destruct (filter has_receipts dgs) as [|g l] eqn:F; [reflexivity|]. exfalso.
      assert (In g (filter has_receipts dgs)) as Hg by (rewrite F; now left). apply filter_In in Hg as [_ Hg].
      unfold has_receipts in Hg. rewrite stamped_cons in A. destruct (g_recs g); discriminate.
    + intros E. rewrite <- (stamped_filter dgs), E in A. cbn in A.
      assert (size dgs = 0)%nat as Z by (unfold size; now rewrite <- stamped_filter, E).
      unfold chunks_of, number_of_chunks. rewrite Z. replace ((0 + Nat.pred (S n)) / S n)%nat with 0%nat; [reflexivity|].
      symmetry. apply Nat.div_small. lia.
Qed.

Theorem parse_dict_chunks w nparts dep n chunks :
  parse_dict w nparts dep n = (chunks, None) <->
  exists gs dgs, dep_is w dep gs /\ Forall2 encoded gs dgs /\ filled dgs <> []
    /\ chunks = dict_chunks (effective_size nparts dep n) dgs.
Proof.
  unfold parse_dict, dep_is. split.
  - intros H. destruct dep as [| | | | | |d]; try discriminate. cbn [effective_size].
    destruct (dict_get d k_bg) as [jb|] eqn:E; [|discriminate].
    destruct jb as [| | | | |[|j js]|]; try discriminate. cbv zeta in H.
    set (m := if ((1 <? nparts) && (n =? 0))%nat then ceil_div (totalRecsInDictDEP d) nparts else n) in *.
    unfold groupChunkGen in H.
    assert (exists gs dgs, Forall2 (group_is w) (j :: js) gs /\ Forall2 encoded gs dgs /\ chunks = dict_chunks m dgs /\ chunks <> [])
      as (gs & dgs & F & F' & Ec & NE).
    { destruct m as [|m'] eqn:Em; cbn [Nat.eqb] in H.
      - destruct (gen_groups w (j :: js)) as [cs e] eqn:G.
        assert ((cs, e) = (chunks, None) /\ cs <> []) as [H' NE] by (destruct cs, e; try discriminate; auto; split; congruence).
        injection H' as -> ->. apply gen_groups_spec in G as (gs & dgs & F & F' & ->). exists gs, dgs. auto.
      - destruct (gen_chunks w (S m') (j :: js) [] 0) as [cs e] eqn:G.
        assert ((cs, e) = (chunks, None) /\ cs <> []) as [H' NE] by (destruct cs, e; try discriminate; auto; split; congruence).
        injection H' as -> ->. apply (gen_chunks_spec w (S m') (j :: js) chunks ltac:(lia) []) in G as (gs & dgs & F & F' & ->); [|constructor].
        exists gs, dgs. split; [exact F|]. split; [exact F'|]. split; [|exact NE]. rewrite pack_windows by lia. reflexivity. }
    exists gs, dgs. split; [eauto|]. split; [exact F'|]. split; [|exact Ec]. intros X. apply (dict_chunks_nil m) in X. congruence.
  - intros (gs & dgs & (d & js & -> & E & F) & F' & NE & ->). rewrite E. cbn [effective_size].
    destruct js as [|j js].
    { inversion F. subst. inversion F'. subst. now contradiction NE. }
    cbv zeta. set (m := if ((1 <? nparts) && (n =? 0))%nat then ceil_div (totalRecsInDictDEP d) nparts else n).
    assert (groupChunkGen w m (j :: js) = (dict_chunks m dgs, None)) as ->.
    { unfold groupChunkGen. destruct m as [|m']; cbn [Nat.eqb].
      - apply gen_groups_spec. eauto 6.
      - apply (gen_chunks_spec w (S m') (j :: js) _ ltac:(lia) []); [constructor|]. exists gs, dgs. split; [exact F|]. split; [exact F'|].
        rewrite pack_windows by lia. reflexivity. }
    destruct (dict_chunks m dgs) eqn:X; [|reflexivity]. apply dict_chunks_nil in X. congruence.
Qed.
