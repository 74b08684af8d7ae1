(** Filling chunks receipt by receipt gives the windows of [chunks_of]. *)
From Coq Require Import Lia ZifyClasses ZifyNat ZifyBool.
From Verif Require Import PyBase World Codec Json Pem DepParser ListFacts SpecCluster SpecChunks AcceptFacts.
Open Scope N_scope.
Open Scope py_scope.
Local Ltac Zify.zify_post_hook ::= Z.div_mod_to_equations.

(** ** Filling *)

(** Receipts [bs] of a group with certificates [c], [ch]; the chunk in progress
    consists of [chunk] and the receipts [recs] of this group. *)
Fixpoint fill (n : nat) (c : option cert) (ch : list cert) (bs : list bytes) (chunk_ : chunk) (recs : list bytes)
  : list chunk * (chunk * list bytes) :=
  match bs with
  | [] => ([], (chunk_, recs))
  | b :: r =>
      if (n <=? size chunk_ + List.length (recs ++ [b]))%nat then
        let x := fill n c ch r [] [] in
        ((chunk_ ++ [DGroup (recs ++ [b]) c ch]) :: fst x, snd x)
      else fill n c ch r chunk_ (recs ++ [b])
  end.

Definition close_group (c : option cert) (ch : list cert) (p : chunk * list bytes) : chunk :=
  match snd p with [] => fst p | recs => fst p ++ [DGroup recs c ch] end.

Fixpoint pack (n : nat) (dgs : list dgroup) (chunk_ : chunk) : list chunk * chunk :=
  match dgs with
  | [] => ([], chunk_)
  | g :: r =>
      let x := fill n (g_cert g) (g_chain g) (g_recs g) chunk_ [] in
      let y := pack n r (close_group (g_cert g) (g_chain g) (snd x)) in
      (fst x ++ fst y, snd y)
  end.

Definition finish (p : list chunk * chunk) : list chunk :=
  fst p ++ match snd p with [] => [] | c => [c] end.

(** ** Sizes *)

Lemma size_cons g l : size (g :: l) = (List.length (g_recs g) + size l)%nat.
Proof. unfold size, stamped. cbn [flat_map]. now rewrite app_length, map_length. Qed.
Lemma size_nil : size [] = 0%nat.
Proof. reflexivity. Qed.
Lemma size_app a b : size (a ++ b) = (size a + size b)%nat.
Proof. unfold size, stamped. now rewrite flat_map_app, app_length. Qed.
Lemma stamped_app a b : stamped (a ++ b) = stamped a ++ stamped b.
Proof. apply flat_map_app. Qed.
Lemma stamped_cons g l : stamped (g :: l) = map (fun b => (b, (g_cert g, g_chain g))) (g_recs g) ++ stamped l.
Proof. reflexivity. Qed.

Lemma current_size d : currentChunksize d = size (d_chunk d).
Proof.
  unfold currentChunksize. induction (d_chunk d) as [|g l IH]; [reflexivity|]. rewrite size_cons. cbn [map list_sum fold_right] in *.
  unfold list_sum in IH. now rewrite <- IH.
Qed.

(** ** Taking and dropping receipts *)

Fixpoint drop (m : nat) (dgs : list dgroup) : list dgroup :=
  match dgs with
  | [] => []
  | g :: r => DGroup (skipn m (g_recs g)) (g_cert g) (g_chain g) :: drop (m - List.length (g_recs g)) r
  end.

Lemma drop_0 dgs : drop 0 dgs = dgs.
Proof. induction dgs as [|[rs c ch] dgs IH]; [reflexivity|]. cbn [drop g_recs g_cert g_chain skipn]. now rewrite Nat.sub_0_l, IH. Qed.

Lemma size_drop m dgs : size (drop m dgs) = (size dgs - m)%nat.
Proof.
  revert m. induction dgs as [|g dgs IH]; intros m; [reflexivity|]. cbn [drop]. rewrite !size_cons, IH. cbn [g_recs].
  rewrite skipn_length. lia.
Qed.

Lemma skipn_skipn {A} a m (l : list A) : skipn a (skipn m l) = skipn (m + a) l.
Proof. revert l. induction m as [|m IH]; intros l; [reflexivity|]. destruct l; [now rewrite !skipn_nil|]. cbn [skipn Nat.add]. apply IH. Qed.

Lemma window_drop m a n dgs : window (m + a) n dgs = window a n (drop m dgs).
Proof.
  revert m a n. induction dgs as [|g dgs IH]; intros m a n; [reflexivity|]. cbn [drop window g_recs g_cert g_chain].
  rewrite skipn_skipn, skipn_length. f_equal.
  set (len := List.length (g_recs g)).
  replace (n - (len - (m + a)))%nat with (n - (len - m - a))%nat by lia.
  destruct (le_lt_dec m len) as [L|L].
  - replace (m - len)%nat with 0%nat by lia. rewrite drop_0. f_equal; lia.
  - replace (len - m)%nat with 0%nat by lia. replace (m + a - len)%nat with (m - len + a)%nat by lia.
    rewrite IH. f_equal; lia.
Qed.

Lemma window_none n dgs : n = 0%nat -> forall a, window a n dgs = [].
Proof.
  intros ->. induction dgs as [|g dgs IH]; intros a; [reflexivity|]. cbn [window]. rewrite IH. reflexivity.
Qed.

Lemma window_all n dgs : (size dgs <= n)%nat -> window 0 n dgs = filter has_receipts dgs.
Proof.
  revert n. induction dgs as [|[rs c ch] dgs IH]; intros n H; [reflexivity|]. rewrite size_cons in H. cbn [g_recs] in H.
  cbn [window g_recs g_cert g_chain skipn]. rewrite firstn_all2 by lia. rewrite Nat.sub_0_l, Nat.sub_0_r, IH by lia.
  symmetry. exact (filter_app has_receipts [DGroup rs c ch] dgs).
Qed.

Lemma stamped_window n dgs : stamped (window 0 n dgs) ++ stamped (drop n dgs) = stamped dgs.
Proof.
  revert n. induction dgs as [|g dgs IH]; intros n; [reflexivity|]. cbn [window drop skipn]. rewrite Nat.sub_0_l, Nat.sub_0_r.
  rewrite stamped_app, !stamped_cons. cbn [g_recs g_cert g_chain].
  assert (stamped (filter has_receipts [DGroup (firstn n (g_recs g)) (g_cert g) (g_chain g)])
          = map (fun b => (b, (g_cert g, g_chain g))) (firstn n (g_recs g))) as ->.
  { cbn [filter has_receipts g_recs]. unfold has_receipts. cbn [g_recs]. destruct (firstn n (g_recs g)) eqn:E; [reflexivity|].
    rewrite <- E. rewrite stamped_cons. cbn [g_recs g_cert g_chain]. apply app_nil_r. }
  rewrite <- (IH (n - List.length (g_recs g))%nat).
  destruct (le_lt_dec n (List.length (g_recs g))) as [L|L].
  - replace (n - List.length (g_recs g))%nat with 0%nat by lia. rewrite window_none by reflexivity.
    rewrite (app_assoc _ (stamped (drop 0 dgs)) _) || idtac. cbn [app stamped flat_map]. rewrite app_nil_r.
    rewrite app_assoc, <- map_app, firstn_skipn. reflexivity.
  - rewrite firstn_all2, skipn_all2 by lia. cbn [map app]. now rewrite app_assoc.
Qed.

Lemma size_window n dgs : size (window 0 n dgs) = Nat.min n (size dgs).
Proof.
  pose proof (stamped_window n dgs) as H. apply (f_equal (@List.length _)) in H. rewrite app_length in H.
  fold (size (window 0 n dgs)) (size (drop n dgs)) (size dgs) in H. rewrite size_drop in H.
  destruct (le_lt_dec (size dgs) n) as [L|L]; [|lia]. lia.
Qed.

Lemma window_filled a n dgs : Forall (fun g => g_recs g <> []) (window a n dgs).
Proof.
  revert a n. induction dgs as [|g dgs IH]; intros a n; [constructor|]. cbn [window]. apply Forall_app. split; [|apply IH].
  apply Forall_forall. intros x H. apply filter_In in H as [_ H]. unfold has_receipts in H. destruct (g_recs x); [discriminate|discriminate].
Qed.

(** ** Filling is windowing *)

Lemma fill_spec n c ch bs : forall chunk_ recs, (size chunk_ + List.length recs < n)%nat ->
  let m := (n - (size chunk_ + List.length recs))%nat in
  fill n c ch bs chunk_ recs =
  if (List.length bs <? m)%nat then ([], (chunk_, recs ++ bs))
  else let x := fill n c ch (skipn m bs) [] [] in
       ((chunk_ ++ [DGroup (recs ++ firstn m bs) c ch]) :: fst x, snd x).
Proof.
  induction bs as [|b bs IH]; intros chunk_ recs H m; cbn [fill].
  - subst m. cbn [List.length]. assert ((0 <? n - (size chunk_ + List.length recs))%nat = true) as -> by lia. now rewrite app_nil_r.
  - rewrite app_length. cbn [List.length]. destruct (Nat.leb_spec n (size chunk_ + (List.length recs + 1))) as [L|L].
    + assert (m = 1%nat) as -> by (subst m; lia). cbn [Nat.ltb Nat.leb skipn firstn]. reflexivity.
    + rewrite IH by (rewrite app_length; cbn [List.length]; lia). rewrite app_length. cbn [List.length].
      assert (n - (size chunk_ + (List.length recs + 1)) = m - 1)%nat as -> by (subst m; lia).
      assert (1 < m)%nat as M by (subst m; lia).
      destruct (Nat.ltb_spec (List.length bs) (m - 1)), (Nat.ltb_spec (S (List.length bs)) m); try lia.
      * now rewrite <- app_assoc.
      * destruct m as [|m']; [lia|]. cbn [skipn firstn]. replace (S m' - 1)%nat with m' by lia.
        now rewrite <- app_assoc.
Qed.

Lemma pack_step n dgs : forall chunk_, (size chunk_ < n)%nat ->
  let m := (n - size chunk_)%nat in
  pack n dgs chunk_ =
  if (size dgs <? m)%nat then ([], chunk_ ++ filter has_receipts dgs)
  else let x := pack n (drop m dgs) [] in
       ((chunk_ ++ window 0 m dgs) :: fst x, snd x).
Proof.
  induction dgs as [|g dgs IH]; intros chunk_ H m.
  - cbn [pack filter]. rewrite size_nil. assert ((0 <? m)%nat = true) as -> by (subst m; lia). now rewrite app_nil_r.
  - cbn [pack]. rewrite size_cons. rewrite fill_spec by (cbn [List.length]; lia). cbn [List.length app].
    replace (n - (size chunk_ + 0))%nat with m by (subst m; lia).
    set (len := List.length (g_recs g)). destruct (Nat.ltb_spec len m) as [L|L].
    + cbn [fst snd app].
      assert (close_group (g_cert g) (g_chain g) (chunk_, g_recs g) = chunk_ ++ filter has_receipts [g]) as E.
      { unfold close_group. cbn [fst snd filter]. unfold has_receipts. destruct g as [[|b bs] c ch]; cbn [g_recs g_cert g_chain];
          [now rewrite app_nil_r|reflexivity]. }
      assert (size (filter has_receipts [g]) = len) as S1.
      { unfold len. cbn [filter]. unfold has_receipts. destruct g as [[|b bs] c ch]; cbn [g_recs]; [reflexivity|].
        rewrite size_cons, size_nil. cbn [g_recs]. lia. }
      rewrite E. rewrite IH by (rewrite size_app, S1; subst m; lia). rewrite size_app.
      rewrite S1. replace (n - (size chunk_ + len))%nat with (m - len)%nat by (subst m; lia).
      assert (filter has_receipts (g :: dgs) = filter has_receipts [g] ++ filter has_receipts dgs) as E2.
      { change (g :: dgs) with ([g] ++ dgs). apply filter_app. }
      destruct (Nat.ltb_spec (size dgs) (m - len)), (Nat.ltb_spec (len + size dgs) m); try lia.
      * now rewrite E2, app_assoc.
      * cbn [drop window fst snd skipn]. fold len. rewrite Nat.sub_0_l, Nat.sub_0_r.
        rewrite (skipn_all2 (g_recs g)) by (fold len; lia). rewrite (firstn_all2 (g_recs g)) by (fold len; lia).
        cbn [pack g_recs g_cert g_chain fill fst snd app close_group].
        assert (filter has_receipts [DGroup (g_recs g) (g_cert g) (g_chain g)] = filter has_receipts [g]) as -> by now destruct g.
        now rewrite <- app_assoc.
    + destruct (Nat.ltb_spec (len + size dgs) m); [lia|]. cbn [fst snd]. cbn [drop window fst snd skipn pack g_recs g_cert g_chain].
      fold len. rewrite Nat.sub_0_l, Nat.sub_0_r. replace (m - len)%nat with 0%nat by lia. rewrite drop_0, window_none by reflexivity.
      rewrite app_nil_r. cbn [app]. f_equal. f_equal. f_equal.
      cbn [filter]. unfold has_receipts. cbn [g_recs]. destruct (firstn m (g_recs g)) eqn:E; [|reflexivity].
      apply (f_equal (@List.length _)) in E. rewrite firstn_length in E. fold len in E. cbn [List.length] in E. subst m. lia.
Qed.

Lemma pack_chunks n : (1 <= n)%nat -> forall k dgs, (size dgs <= k)%nat -> finish (pack n dgs []) = chunks_of n dgs.
Proof.
  intros Hn. induction k as [k IH] using lt_wf_ind. intros dgs Hk. rewrite pack_step by (rewrite size_nil; lia). rewrite size_nil, Nat.sub_0_r.
  unfold chunks_of, number_of_chunks. cbv zeta. destruct (Nat.ltb_spec (size dgs) n) as [L|L].
  - unfold finish. cbn [fst snd app]. destruct (Nat.eq_dec (size dgs) 0) as [Z|Z].
    + replace ((size dgs + Nat.pred n) / n)%nat with 0%nat by (symmetry; apply Nat.div_small; lia). cbn [seq map].
      rewrite <- (window_all 0) by lia. now rewrite window_none.
    + replace ((size dgs + Nat.pred n) / n)%nat with 1%nat.
      2:{ apply Nat.div_unique with (r := (size dgs - 1)%nat); lia. }
      cbn [seq map Nat.mul]. rewrite window_all by lia. destruct (filter has_receipts dgs) eqn:E; [|reflexivity].
      exfalso. rewrite <- (window_all (size dgs)) in E by lia. apply (f_equal size) in E. rewrite size_window, size_nil in E. lia.
  - replace ((size dgs + Nat.pred n) / n)%nat with (S ((size (drop n dgs) + Nat.pred n) / n)).
    2:{ rewrite size_drop. replace (size dgs + Nat.pred n)%nat with ((size dgs - n + Nat.pred n) + 1 * n)%nat by lia.
        rewrite Nat.div_add by lia. lia. }
    cbn [seq map Nat.mul]. rewrite <- seq_shift, map_map. cbn [app].
    assert (finish (window 0 n dgs :: fst (pack n (drop n dgs) []), snd (pack n (drop n dgs) []))
            = window 0 n dgs :: finish (pack n (drop n dgs) [])) as -> by reflexivity.
    f_equal. destruct (Nat.eq_dec (size dgs) 0) as [Z|Z]; [lia|].
    rewrite (IH (size (drop n dgs))); [|rewrite size_drop; lia|lia]. unfold chunks_of, number_of_chunks. apply map_ext.
    intros j. rewrite <- window_drop. reflexivity.
Qed.

Theorem pack_windows n dgs : (1 <= n)%nat -> finish (pack n dgs []) = chunks_of n dgs.
Proof. intros H. now apply (pack_chunks n H (size dgs)). Qed.

(** ** What windows contain *)

Lemma chunks_step n dgs : (1 <= n)%nat -> (n <= size dgs)%nat ->
  chunks_of n dgs = window 0 n dgs :: chunks_of n (drop n dgs).
Proof.
  intros Hn L. rewrite <- !pack_windows by assumption. rewrite pack_step by (rewrite size_nil; lia). rewrite size_nil, Nat.sub_0_r. cbv zeta.
  assert ((size dgs <? n)%nat = false) as -> by lia. reflexivity.
Qed.

Lemma chunks_few n dgs : (1 <= n)%nat -> (size dgs < n)%nat ->
  chunks_of n dgs = match filter has_receipts dgs with [] => [] | l => [l] end.
Proof.
  intros Hn L. rewrite <- pack_windows by assumption. rewrite pack_step by (rewrite size_nil; lia). rewrite size_nil, Nat.sub_0_r. cbv zeta.
  assert ((size dgs <? n)%nat = true) as -> by lia. reflexivity.
Qed.

Lemma stamped_filter dgs : stamped (filter has_receipts dgs) = stamped dgs.
Proof.
  induction dgs as [|g dgs IH]; [reflexivity|]. cbn [filter]. unfold has_receipts at 1. destruct (g_recs g) eqn:E.
  - rewrite IH, stamped_cons, E. reflexivity.
  - now rewrite !stamped_cons, IH.
Qed.

Theorem chunks_deliver n dgs : (1 <= n)%nat -> delivers n dgs (chunks_of n dgs).
Proof.
  intros Hn. remember (size dgs) as k eqn:Ek. revert dgs Ek. induction k as [k IH] using lt_wf_ind. intros dgs Ek.
  destruct (le_lt_dec n (size dgs)) as [L|L].
  - rewrite chunks_step by assumption. destruct (IH (size (drop n dgs)) ltac:(rewrite size_drop; lia) (drop n dgs) eq_refl) as (A & B & C).
    unfold delivers. cbn [flat_map]. split; [rewrite A; apply stamped_window|]. split; [constructor; [apply window_filled|exact B]|].
    intros [|c' l] c E.
    + injection E as <- E. split; [constructor|]. rewrite size_window. lia.
    + injection E as <- E. destruct (C l c E) as [C1 C2]. split; [|exact C2]. constructor; [rewrite size_window; lia|exact C1].
  - rewrite chunks_few by assumption. unfold delivers. pose proof (stamped_filter dgs) as S1.
    destruct (filter has_receipts dgs) as [|g l] eqn:E.
    + cbn [flat_map]. split; [exact S1|]. split; [constructor|]. intros l c H. destruct l; discriminate.
    + rewrite <- E in *. cbn [flat_map]. rewrite app_nil_r. split; [exact S1|]. split.
      * constructor; [|constructor]. apply Forall_forall. intros x Hx. apply filter_In in Hx as [_ Hx]. unfold has_receipts in Hx.
        destruct (g_recs x); discriminate.
      * intros [|c' l'] c H; [|destruct l'; discriminate]. injection H as <-. split; [constructor|].
        assert (size (filter has_receipts dgs) = size dgs) as -> by (unfold size; now rewrite S1).
        assert (size (filter has_receipts dgs) <> 0)%nat; [|unfold size in *; rewrite S1 in *; lia].
        rewrite E, size_cons. assert (In g (filter has_receipts dgs)) as Hg by (rewrite E; now left).
        apply filter_In in Hg as [_ Hg]. unfold has_receipts in Hg. destruct (g_recs g); [discriminate|cbn [List.length]; lia].
Qed.
