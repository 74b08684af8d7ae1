(** Groups of test cases: rows, report and exit status. *)
From Coq Require Import Lia ZifyClasses ZifyN ZifyNat ZifyBool Sorting.Sorted Floats.SpecFloat.
From Verif Require Import PyBase ListFacts World Codec Json KeyStore State StateFacts DepParser Verify RunTest SpecReceipt SpecKeys SpecPool SpecState CashReg SpecCashReg
  TestVerify TestSetup SpecSetup SetupFacts SetupTest TestMulti SpecTestMulti TestFilesFacts.
Open Scope N_scope.

(** ** Combinations *)

Definition kinds (tc : tcase) : list bool := match tc_closed tc with Some c => [c] | None => [false; true] end.
Lemma kinds_In tc c : In c (kinds tc) <-> tc_closed tc = None \/ tc_closed tc = Some c.
Proof.
  unfold kinds. destruct (tc_closed tc) as [c'|].
  - split; [intros [->|[]]; now right|intros [H|H]; [discriminate H|injection H as ->; now left]].
  - split; [now left|intros _; destruct c; cbn; auto].
Qed.
Definition spec_for (size : nat) (tc : tcase) (c : bool) : tcase := with_closed c (with_size size tc).

Lemma size_again s tc n : with_size n (with_size s tc) = with_size n tc.
Proof. reflexivity. Qed.
Lemma closed_again n tc : tc_closed (with_size n tc) = tc_closed tc.
Proof. reflexivity. Qed.
Lemma generate_again sizes s cases : generate_specs sizes (map (with_size s) cases) = generate_specs sizes cases.
Proof. destruct sizes as [|n r]; [reflexivity|]. cbn [generate_specs]. now rewrite map_map. Qed.
Lemma generate_spec sizes cases : generate_specs sizes cases = flat_map (fun s => flat_map (fun tc => map (spec_for s tc) (kinds tc)) cases) sizes.
Proof.
  induction sizes as [|s r IH]; [reflexivity|]. cbn [generate_specs flat_map]. rewrite generate_again, IH. f_equal. clear.
  induction cases as [|tc cases IH]; [reflexivity|]. cbn [map flat_map]. rewrite IH. f_equal. rewrite closed_again. unfold kinds, spec_for, with_closed, with_size. destruct tc as [l [c|] sp x]; reflexivity.
Qed.

Fixpoint row_pos (i j : nat) (cases : list tcase) : list combination :=
  match cases with [] => [] | tc :: r => map (fun c => (i, j, c)) (kinds tc) ++ row_pos i (S j) r end.
Fixpoint all_pos (i : nat) (sizes : list nat) (cases : list tcase) : list combination :=
  match sizes with [] => [] | _ :: r => row_pos i 0 cases ++ all_pos (S i) r cases end.

Lemma row_pos_In i : forall cases j0 i' j c, In (i', j, c) (row_pos i j0 cases) <->
  i' = i /\ (j0 <= j)%nat /\ exists tc, nth_error cases (j - j0) = Some tc /\ In c (kinds tc).
Proof.
  induction cases as [|tc cases IH]; intros j0 i' j c; cbn [row_pos].
  - split; [intros []|]. intros (_ & _ & tc & E & _). destruct (j - j0)%nat; discriminate E.
  - rewrite in_app_iff, IH, in_map_iff. split.
    + intros [(c0 & E & H)|(-> & L & tc' & E & H)].
      * injection E as <- <- <-. split; [reflexivity|]. split; [lia|]. exists tc. rewrite Nat.sub_diag. now split.
      * split; [reflexivity|]. split; [lia|]. exists tc'. replace (j - j0)%nat with (S (j - S j0)) by lia. now split.
    + intros (-> & L & tc' & E & H). destruct (Nat.eq_dec j j0) as [->|N].
      * left. rewrite Nat.sub_diag in E. injection E as ->. now exists c.
      * right. split; [reflexivity|]. split; [lia|]. exists tc'. replace (j - j0)%nat with (S (j - S j0)) in E by lia. now split.
Qed.
Lemma all_pos_In cases : forall sizes i0 i j c, In (i, j, c) (all_pos i0 sizes cases) <->
  (i0 <= i)%nat /\ exists size tc, nth_error sizes (i - i0) = Some size /\ nth_error cases j = Some tc /\ In c (kinds tc).
Proof.
  induction sizes as [|s sizes IH]; intros i0 i j c; cbn [all_pos].
  - split; [intros []|]. intros (_ & s & tc & E & _). destruct (i - i0)%nat; discriminate E.
  - rewrite in_app_iff, IH, row_pos_In. rewrite Nat.sub_0_r. split.
    + intros [(-> & _ & tc & E & H)|(L & s' & tc & Es & E & H)].
      * split; [lia|]. exists s, tc. rewrite Nat.sub_diag. now split.
      * split; [lia|]. exists s', tc. replace (i - i0)%nat with (S (i - S i0)) by lia. now split.
    + intros (L & s' & tc & Es & E & H). destruct (Nat.eq_dec i i0) as [->|N].
      * left. split; [reflexivity|]. split; [lia|]. now exists tc.
      * right. split; [lia|]. exists s', tc. replace (i - i0)%nat with (S (i - S i0)) in Es by lia. now split.
Qed.

Lemma sorted_app {A} (R : A -> A -> Prop) l m : StronglySorted R l -> StronglySorted R m -> (forall x y, In x l -> In y m -> R x y) -> StronglySorted R (l ++ m).
Proof.
  intros Sl Sm H. induction Sl as [|x l Sl IH F]; cbn [app]; [exact Sm|]. constructor.
  - apply IH. intros y z Hy Hz. apply H; [now right|exact Hz].
  - apply Forall_app. split; [exact F|]. apply Forall_forall. intros y Hy. apply H; [now left|exact Hy].
Qed.
Lemma row_pos_sorted i : forall cases j, StronglySorted earlier (row_pos i j cases).
Proof.
  induction cases as [|tc cases IH]; intros j; cbn [row_pos]; [constructor|]. apply sorted_app; [|apply IH|].
  - unfold kinds. destruct (tc_closed tc); cbn [map]; [apply SSorted_cons; constructor|]. apply SSorted_cons; [apply SSorted_cons; constructor|].
    apply Forall_cons; [|apply Forall_nil]. right. split; [reflexivity|]. right. now split.
  - intros x [[i' j'] c'] Hx Hy. apply in_map_iff in Hx as (c & <- & _). apply row_pos_In in Hy as (-> & L & _). cbn. lia.
Qed.
Lemma all_pos_sorted cases : forall sizes i, StronglySorted earlier (all_pos i sizes cases).
Proof.
  induction sizes as [|s sizes IH]; intros i; cbn [all_pos]; [constructor|]. apply sorted_app; [apply row_pos_sorted|apply IH|].
  intros [[i1 j1] c1] [[i2 j2] c2] Hx Hy. apply row_pos_In in Hx as (-> & _). apply all_pos_In in Hy as (L & _). cbn. lia.
Qed.
Theorem turn_exists sizes cases : in_turn sizes cases (all_pos 0 sizes cases).
Proof.
  split; [apply all_pos_sorted|]. intros i j c. rewrite all_pos_In, Nat.sub_0_r. split.
  - intros (_ & s & tc & E & E' & H). exists s, tc. apply kinds_In in H. auto.
  - intros (s & tc & E & E' & H). split; [lia|]. exists s, tc. apply kinds_In in H. auto.
Qed.

Lemma earlier_asym p q : earlier p q -> earlier q p -> False.
Proof. destruct p as [[i j] c], q as [[i' j'] c']. cbn. intuition (try lia; congruence). Qed.
Lemma sorted_unique l : forall m, StronglySorted earlier l -> StronglySorted earlier m -> (forall x, In x l <-> In x m) -> l = m.
Proof.
  induction l as [|a l IH]; intros [|b m] Sl Sm H; [reflexivity|destruct (proj2 (H b) (or_introl eq_refl))|destruct (proj1 (H a) (or_introl eq_refl))|].
  apply StronglySorted_inv in Sl as [Sl Fl]. apply StronglySorted_inv in Sm as [Sm Fm]. rewrite Forall_forall in Fl, Fm.
  assert (a = b) as <-.
  { destruct (proj1 (H a) (or_introl eq_refl)) as [E|Ha]; [now symmetry|]. destruct (proj2 (H b) (or_introl eq_refl)) as [E|Hb]; [exact E|].
    destruct (earlier_asym a b); auto. }
  f_equal. apply (IH m Sl Sm). intros x. split; intros Hx.
  - destruct (proj1 (H x) (or_intror Hx)) as [<-|Hm]; [|exact Hm]. destruct (earlier_asym a a); auto.
  - destruct (proj2 (H x) (or_intror Hx)) as [<-|Hm]; [|exact Hm]. destruct (earlier_asym a a); auto.
Qed.
Theorem turn_unique sizes cases ps ps' : in_turn sizes cases ps -> in_turn sizes cases ps' -> ps = ps'.
Proof.
  intros [S H] [S' H']. apply sorted_unique; [exact S|exact S'|]. intros [[i j] c]. now rewrite H, H'.
Qed.

(** The specifications are those of the combinations. *)
Definition specified (sizes : list nat) (cases : list tcase) (p : combination) (t : tcase) : Prop :=
  let '(i, j, c) := p in exists size tc, nth_error sizes i = Some size /\ nth_error cases j = Some tc /\ t = spec_for size tc c.

Lemma row_specified sizes s i : nth_error sizes i = Some s -> forall cases pre, 
  Forall2 (specified sizes (pre ++ cases)) (row_pos i (List.length pre) cases) (flat_map (fun tc => map (spec_for s tc) (kinds tc)) cases).
Proof.
  intros Es. induction cases as [|tc cases IH]; intros pre; cbn [row_pos flat_map]; [constructor|]. apply Forall2_app.
  - assert (forall ks, Forall2 (specified sizes (pre ++ tc :: cases)) (map (fun c => (i, List.length pre, c)) ks) (map (spec_for s tc) ks)) as H; [|apply H].
    induction ks as [|c ks IHk]; cbn [map]; constructor; [|exact IHk]. exists s, tc. split; [exact Es|]. split; [|reflexivity]. rewrite nth_error_app2, Nat.sub_diag by lia. reflexivity.
  - specialize (IH (pre ++ [tc])). rewrite app_length in IH. cbn [List.length] in IH. rewrite <- app_assoc in IH. replace (List.length pre + 1)%nat with (S (List.length pre)) in IH by lia. exact IH.
Qed.
Lemma all_specified cases : forall sizes pre, Forall2 (specified (pre ++ sizes) cases) (all_pos (List.length pre) sizes cases)
    (flat_map (fun s => flat_map (fun tc => map (spec_for s tc) (kinds tc)) cases) sizes).
Proof.
  induction sizes as [|s sizes IH]; intros pre; cbn [all_pos flat_map]; [constructor|]. apply Forall2_app.
  - assert (nth_error (pre ++ s :: sizes) (List.length pre) = Some s) as Es by (rewrite nth_error_app2, Nat.sub_diag by lia; reflexivity).
    exact (row_specified _ s (List.length pre) Es cases []).
  - specialize (IH (pre ++ [s])). rewrite app_length in IH. cbn [List.length] in IH. rewrite <- app_assoc in IH. replace (List.length pre + 1)%nat with (S (List.length pre)) in IH by lia. exact IH.
Qed.
Lemma turn_specified sizes cases ps : in_turn sizes cases ps -> Forall2 (specified sizes cases) ps (generate_specs sizes cases).
Proof. intros T. rewrite (turn_unique _ _ _ _ T (turn_exists _ _)), generate_spec. exact (all_specified cases sizes []). Qed.

Lemma Forall2_nth {A B} (P : A -> B -> Prop) l m : Forall2 P l m -> forall n x y, nth_error l n = Some x -> nth_error m n = Some y -> P x y.
Proof. induction 1 as [|a b l m H F IH]; intros [|n] x y E E'; cbn [nth_error] in *; try discriminate; [injection E as <-; injection E' as <-; exact H|eauto]. Qed.

(** ** One case *)

Lemma same_size sp n sp' x y z : same_but_size sp sp' n -> sp' = tc_spec (with_size n (TCase x y sp z)).
Proof.
  unfold same_but_size, with_size. destruct sp, sp'. cbn. intros (-> & -> & -> & -> & -> & -> & -> & -> & -> & -> & -> & -> & -> & ->). reflexivity.
Qed.
Lemma with_same n tc : same_but_size (tc_spec tc) (tc_spec (with_size n tc)) n.
Proof. repeat split. Qed.

Section Cases.
Variables (w : world) (say : exn -> str) (b : backend) (group crt pub priv : str).

Lemma named_iff tc : (exists l, named tc l) <-> str_eqb (match tc_label tc with Some l => l | None => lit "Unknown" end) (lit "Unknown") = false.
Proof.
  unfold named. destruct (tc_label tc) as [l|].
  - split.
    + intros (l0 & E & N). injection E as ->. apply not_true_is_false. now rewrite str_eqb_eq.
    + intros E. exists l. split; [reflexivity|]. intros ->. now rewrite str_eqb_refl in E.
  - split; [intros (l0 & E & _); discriminate E|]. rewrite str_eqb_refl. discriminate.
Qed.

Lemma row_ok ch size tc c r : test_row w say b ch group crt pub priv 8 (spec_for size tc c) = Ok r <-> tested w say b ch group crt pub priv size tc c r.
Proof.
  unfold test_row, spec_for. cbn [with_closed with_size tc_label tc_closed tc_spec tc_expect ts_size].
  pose proof (named_iff tc) as Nm. destruct (str_eqb (match tc_label tc with Some l => l | None => lit "Unknown" end) (lit "Unknown")) eqn:El.
  - assert (forall l, ~ named tc l) as No by (intros l H; pose proof (proj1 Nm (ex_intro _ l H)); discriminate).
    cbn [bind fst snd]. apply str_eqb_eq in El. rewrite El. split.
    + intros H. apply Ok_inj in H. subst r. now constructor.
    + intros H. inversion H as [_ E|l r0 m Hn _ E]; subst; [reflexivity|]. destruct (No l Hn).
  - destruct (proj2 Nm eq_refl) as (l & E & N). rewrite E. split.
    + intros ((r0 & msg) & T & H)%bind_Ok. apply Ok_inj in H. subst r. constructor; [now split|]. exists (tc_spec (with_size size tc)). split; [apply with_same|]. exact T.
    + intros H. inversion H as [No|l0 r0 m [E0 _] (sp & Sp & T)]; subst; [destruct (No l); now split|]. rewrite E0 in E. injection E as ->.
      apply (same_size _ _ _ (tc_label tc) (tc_closed tc) (tc_expect tc)) in Sp. subst sp. change (tc_spec (with_size size {| tc_label := tc_label tc; tc_closed := tc_closed tc; tc_spec := tc_spec tc; tc_expect := tc_expect tc |})) with (tc_spec (with_size size tc)) in T.
      unfold with_size in T. cbn [tc_spec] in T. rewrite T. reflexivity.
Qed.
Lemma row_err ch size tc c e : test_row w say b ch group crt pub priv 8 (spec_for size tc c) = Err e <-> escapes w say b ch crt pub priv size tc c e.
Proof.
  unfold test_row, spec_for. cbn [with_closed with_size tc_label tc_closed tc_spec tc_expect ts_size].
  pose proof (named_iff tc) as Nm. destruct (str_eqb (match tc_label tc with Some l => l | None => lit "Unknown" end) (lit "Unknown")) eqn:El.
  - cbn [bind]. split; [discriminate|]. intros (l & H & _). pose proof (proj1 Nm (ex_intro _ l H)). discriminate.
  - destruct (proj2 Nm eq_refl) as (l & Hl). split.
    + intros H. exists l. split; [exact Hl|]. exists (tc_spec (with_size size tc)). split; [apply with_same|]. unfold with_size. cbn [tc_spec].
      destruct (testVerify_full _ _ _ _ _ _ _ _ _ _ _) as [x|e0]; [discriminate H|]. cbn [bind] in H. injection H as ->. reflexivity.
    + intros (l0 & _ & sp & Sp & T). apply (same_size _ _ _ (tc_label tc) (tc_closed tc) (tc_expect tc)) in Sp. subst sp. unfold with_size in T. cbn [tc_spec] in T. rewrite T. reflexivity.
Qed.

(** ** All cases *)

Variable env : nat -> chance.
Lemma multi_spec : forall cs i rows e, testVerifyMulti w say b env group crt pub priv 8 i cs = (rows, e) <->
  (forall n r, nth_error rows n = Some r -> exists tc, nth_error cs n = Some tc /\ test_row w say b (env (i + n)%nat) group crt pub priv 8 tc = Ok r)
  /\ match e with
     | None => List.length rows = List.length cs
     | Some x => exists tc, nth_error cs (List.length rows) = Some tc /\ test_row w say b (env (i + List.length rows)%nat) group crt pub priv 8 tc = Err x
     end.
Proof.
  induction cs as [|tc cs IH]; intros i rows e; cbn [testVerifyMulti].
  - split.
    + intros H. injection H as <- <-. split; [intros [|n] r E; discriminate E|reflexivity].
    + intros [H1 H2]. destruct e as [x|]; [destruct H2 as (tc & E & _); destruct (List.length rows); discriminate E|]. destruct rows; [reflexivity|discriminate H2].
  - destruct (test_row w say b (env i) group crt pub priv 8 tc) as [x|x] eqn:Er.
    + destruct (testVerifyMulti w say b env group crt pub priv 8 (S i) cs) as [l e0] eqn:Em. split.
      * intros H. injection H as <- <-. pose proof (proj1 (IH _ _ _) Em) as [H1 H2]. split.
        { intros [|n] r E; cbn [nth_error] in E |- *; [injection E as <-; exists tc; rewrite Nat.add_0_r; now split|].
          replace (i + S n)%nat with (S i + n)%nat by lia. now apply H1. }
        { cbn [List.length]. destruct e0; [cbn [nth_error]; now replace (i + S (List.length l))%nat with (S i + List.length l)%nat by lia|now rewrite H2]. }
      * intros [H1 H2]. destruct rows as [|r rows].
        { destruct e as [y|]; [|discriminate H2]. destruct H2 as (tc' & E & T). cbn [List.length nth_error] in E, T. injection E as <-. rewrite Nat.add_0_r, Er in T. discriminate T. }
        destruct (H1 0%nat r eq_refl) as (tc' & E & T). cbn [nth_error] in E. injection E as <-. rewrite Nat.add_0_r, Er in T. apply Ok_inj in T. subst x.
        assert (testVerifyMulti w say b env group crt pub priv 8 (S i) cs = (rows, e)) as Q.
        { apply IH. split.
          - intros n r0 En. replace (S i + n)%nat with (i + S n)%nat by lia. exact (H1 (S n) r0 En).
          - cbn [List.length] in H2. destruct e as [y|]; [|now injection H2]. cbn [nth_error] in H2. now replace (S i + List.length rows)%nat with (i + S (List.length rows))%nat by lia. }
        rewrite Em in Q. injection Q as -> ->. reflexivity.
    + split.
      * intros H. injection H as <- <-. split; [intros [|n] r E; discriminate E|]. exists tc. cbn [List.length nth_error]. rewrite Nat.add_0_r. now split.
      * intros [H1 H2]. destruct rows as [|r rows].
        { destruct e as [y|]; [|discriminate H2]. destruct H2 as (tc' & E & T). cbn [List.length nth_error] in E, T. injection E as <-. rewrite Nat.add_0_r, Er in T. injection T as ->. reflexivity. }
        destruct (H1 0%nat r eq_refl) as (tc' & E & T). cbn [nth_error] in E. injection E as <-. rewrite Nat.add_0_r, Er in T. discriminate T.
Qed.

Lemma multi_rows sizes cases ps rows e : in_turn sizes cases ps ->
  testVerifyMulti w say b env group crt pub priv 8 0 (generate_specs sizes cases) = (rows, e) <->
  rows_for w say b env group crt pub priv sizes cases ps rows
  /\ match e with
     | None => List.length rows = List.length ps
     | Some x => exists i j c size tc, nth_error ps (List.length rows) = Some (i, j, c) /\ nth_error sizes i = Some size /\ nth_error cases j = Some tc
         /\ escapes w say b (env (List.length rows)) crt pub priv size tc c x
     end.
Proof.
  intros T. pose proof (turn_specified _ _ _ T) as F. pose proof (RunTestSeq.Forall2_len _ _ _ F) as Ln. rewrite multi_spec. cbn [Nat.add].
  assert (forall n t, nth_error (generate_specs sizes cases) n = Some t -> exists i j c size tc,
    nth_error ps n = Some (i, j, c) /\ nth_error sizes i = Some size /\ nth_error cases j = Some tc /\ t = spec_for size tc c) as To.
  { intros n t E. destruct (nth_error ps n) as [[[i j] c]|] eqn:Ep; [|apply nth_error_None in Ep; apply nth_error_Some_length in E; lia].
    destruct (Forall2_nth _ _ _ F n _ _ Ep E) as (size & tc & A & B & C). now exists i, j, c, size, tc. }
  assert (forall n i j c size tc, nth_error ps n = Some (i, j, c) -> nth_error sizes i = Some size -> nth_error cases j = Some tc ->
    nth_error (generate_specs sizes cases) n = Some (spec_for size tc c)) as Fro.
  { intros n i j c size tc Ep Es Ec. destruct (nth_error (generate_specs sizes cases) n) as [t|] eqn:E; [|apply nth_error_None in E; apply nth_error_Some_length in Ep; lia].
    destruct (Forall2_nth _ _ _ F n _ _ Ep E) as (size' & tc' & A & B & C). rewrite A in Es. rewrite B in Ec. injection Es as ->. injection Ec as ->. now subst t. }
  split.
  - intros [H1 H2]. split; [split|].
    + destruct e as [x|]; [destruct H2 as (tc & E & _); apply nth_error_Some_length in E; lia|lia].
    + intros n r E. destruct (H1 n r E) as (t & Et & Rt). destruct (To n t Et) as (i & j & c & size & tc & A & B & C & ->). exists i, j, c, size, tc. apply row_ok in Rt. auto.
    + destruct e as [x|]; [|lia]. destruct H2 as (t & Et & Rt). destruct (To _ t Et) as (i & j & c & size & tc & A & B & C & ->). exists i, j, c, size, tc. apply row_err in Rt. auto.
  - intros [[L H1] H2]. split.
    + intros n r E. destruct (H1 n r E) as (i & j & c & size & tc & A & B & C & Rt). exists (spec_for size tc c). split; [eauto|]. now apply row_ok.
    + destruct e as [x|]; [|lia]. destruct H2 as (i & j & c & size & tc & A & B & C & Rt). exists (spec_for size tc c). split; [eauto|]. now apply row_err.
Qed.
End Cases.

(** ** Report and status *)

Lemma res_eqb_spec a c : res_eqb a c = true <-> a = c.
Proof. destruct a, c; split; intros H; (reflexivity || discriminate H). Qed.
Lemma lines_spec rows out : lines_of rows out <-> out = flat_map printTestVerifyResult rows.
Proof.
  unfold lines_of. rewrite flat_map_concat_map. split.
  - intros (ls & F & ->). f_equal. induction F as [|r l rows ls H F IH]; [reflexivity|]. cbn [map]. now rewrite <- IH, H.
  - intros ->. exists (map printTestVerifyResult rows). split; [|reflexivity]. induction rows; cbn [map]; constructor; [reflexivity|assumption].
Qed.
Lemma counted_spec x rows n : counted x rows n <-> n = count_of x rows.
Proof.
  unfold count_of. revert n. induction rows as [|r rows IH]; intros n; cbn [filter].
  - split; [intros H; now inversion H|]. intros ->. constructor.
  - destruct (res_eqb (row_result r) x) eqn:E.
    + apply res_eqb_spec in E. cbn [List.length]. split.
      * intros H. inversion H; subst; [f_equal; now apply IH|contradiction].
      * intros ->. constructor; [exact E|now apply IH].
    + assert (row_result r <> x) as N by (intros H; apply res_eqb_spec in H; congruence). split.
      * intros H. inversion H; subst; [contradiction|now apply IH].
      * intros ->. apply counted_other; [exact N|now apply IH].
Qed.
Lemma summary_spec rows line : summary_of rows line <-> line = printTestVerifySummary rows.
Proof.
  unfold summary_of, printTestVerifySummary. split.
  - intros (f & e & Hf & He & ->). apply counted_spec in Hf, He. now subst.
  - intros ->. eexists _, _. split; [now apply counted_spec|]. split; [now apply counted_spec|reflexivity].
Qed.
Lemma exists_spec x rows : existsb (fun r => res_eqb r x) (map row_result rows) = true <-> Exists (fun r => row_result r = x) rows.
Proof.
  rewrite existsb_exists, Exists_exists. split.
  - intros (y & H & E). apply in_map_iff in H as (r & <- & H). exists r. split; [exact H|]. now apply res_eqb_spec.
  - intros (r & H & E). exists (row_result r). split; [now apply in_map|]. now apply res_eqb_spec.
Qed.
Lemma status_spec rows st : right_status rows st <-> st = exit_status (map row_result rows).
Proof.
  pose proof (exists_spec R_ERROR rows) as Xe. pose proof (exists_spec R_FAIL rows) as Xf. unfold exit_status, right_status.
  assert (Forall (fun r => row_result r = R_OK) rows <-> ~ Exists (fun r => row_result r = R_ERROR) rows /\ ~ Exists (fun r => row_result r = R_FAIL) rows) as Xo.
  { clear. induction rows as [|r rows IH].
    - split; [intros _; split; intros H; inversion H|constructor].
    - rewrite Forall_cons_iff, !Exists_cons, IH. destruct (row_result r); intuition congruence. }
  destruct (existsb (fun r => res_eqb r R_ERROR) (map row_result rows)).
  - pose proof (proj1 Xe eq_refl) as H. split; [intros (_ & S2 & _); now apply S2|]. intros ->. rewrite Xo. intuition discriminate.
  - assert (~ Exists (fun r => row_result r = R_ERROR) rows) as Ne by (intros H; apply Xe in H; discriminate H).
    destruct (existsb (fun r => res_eqb r R_FAIL) (map row_result rows)).
    + pose proof (proj1 Xf eq_refl) as H. split; [intros (_ & _ & S1); apply S1; now split|]. intros ->. rewrite Xo. intuition discriminate.
    + assert (~ Exists (fun r => row_result r = R_FAIL) rows) as Nf by (intros H; apply Xf in H; discriminate H).
      split; [intros (S0 & _); apply S0, Xo; now split|]. intros ->. rewrite Xo. intuition discriminate.
Qed.

(** ** The command line *)

Lemma sizes_spec w texts sizes : Forall2 (fun t n => ~ In c_comma t /\ py_int w 10 t = Some (Z.of_nat n) /\ (5 <= n <= 16)%nat) texts sizes -> tc_sizes w texts = inr sizes.
Proof.
  induction 1 as [|t n texts sizes (_ & E & L) F IH]; [reflexivity|]. cbn [tc_sizes]. unfold tc_size_or_error. rewrite E.
  replace ((Z.of_nat n <? 5)%Z || (16 <? Z.of_nat n)%Z) with false by lia. now rewrite Nat2Z.id, IH.
Qed.
Lemma read_cases_spec read files cases : Forall2 (fun f tc => read f = Ok tc) files cases -> read_cases read files = Ok cases.
Proof. induction 1 as [|f tc files cases E F IH]; [reflexivity|]. cbn [read_cases]. rewrite E. cbn [bind]. now rewrite IH. Qed.

Lemma command_runs w say b env read_case read args priv crt pub sizes group cases :
  multi_command w read_case read args priv crt pub sizes group cases ->
  test_verify_py w say b env read_case read args =
  let (rows, e) := testVerifyMulti w say b env group crt pub priv 8 0 (generate_specs sizes cases) in
  match e with
  | Some e => (flat_map printTestVerifyResult rows, S_raised e)
  | None => (flat_map printTestVerifyResult rows ++ [printTestVerifySummary rows], S_exit (exit_status (map row_result rows)))
  end.
Proof.
  intros (fpriv & fcrt & fpub & texts & files & -> & E1 & E2 & E3 & Nt & Ft & Nf & Ff). unfold test_verify_py. rewrite str_eqb_refl.
  destruct files as [|f files]; [contradiction|]. unfold test_multi_py. rewrite split_join; [|exact Nt|clear -Ft; induction Ft as [|t n l m [H _] F IH]; constructor; assumption].
  rewrite (sizes_spec w texts sizes Ft), E2. cbn [bind]. rewrite E3. cbn [bind]. rewrite E1. cbn [bind]. rewrite (read_cases_spec _ _ _ Ff). cbn [bind]. reflexivity.
Qed.

Theorem multi_ends w say b env read_case read args priv crt pub sizes group cases ps :
  multi_command w read_case read args priv crt pub sizes group cases -> in_turn sizes cases ps ->
  (forall out st, test_verify_py w say b env read_case read args = (out, S_exit st) <->
     exists rows lines last, rows_for w say b env group crt pub priv sizes cases ps rows /\ List.length rows = List.length ps
       /\ lines_of rows lines /\ summary_of rows last /\ out = lines ++ [last] /\ right_status rows st)
  /\ (forall out e, test_verify_py w say b env read_case read args = (out, S_raised e) <->
     exists rows, rows_for w say b env group crt pub priv sizes cases ps rows /\ lines_of rows out
       /\ exists i j c size tc, nth_error ps (List.length rows) = Some (i, j, c) /\ nth_error sizes i = Some size /\ nth_error cases j = Some tc
          /\ escapes w say b (env (List.length rows)) crt pub priv size tc c e).
Proof.
  intros Cm T. rewrite (command_runs w say b env _ _ _ _ _ _ _ _ _ Cm).
  destruct (testVerifyMulti w say b env group crt pub priv 8 0 (generate_specs sizes cases)) as [rows e] eqn:E.
  assert (forall rows' e', rows_for w say b env group crt pub priv sizes cases ps rows' /\ match e' with
     | None => List.length rows' = List.length ps
     | Some x => exists i j c size tc, nth_error ps (List.length rows') = Some (i, j, c) /\ nth_error sizes i = Some size /\ nth_error cases j = Some tc
         /\ escapes w say b (env (List.length rows')) crt pub priv size tc c x
     end -> rows' = rows /\ e' = e) as U.
  { intros rows' e' H. apply (multi_rows w say b group crt pub priv env sizes cases ps rows' e' T) in H. rewrite E in H. injection H as <- <-. now split. }
  pose proof (proj1 (multi_rows w say b group crt pub priv env sizes cases ps rows e T) E) as [H1 H2]. split.
  - intros out st. split.
    + destruct e as [x|]; [discriminate|]. intros H. injection H as <- <-. exists rows, (flat_map printTestVerifyResult rows), (printTestVerifySummary rows).
      split; [exact H1|]. split; [exact H2|]. split; [now apply lines_spec|]. split; [now apply summary_spec|]. split; [reflexivity|]. now apply status_spec.
    + intros (rows' & ls & last & A & B & C & D & -> & S). destruct (U rows' None (conj A B)) as [-> <-]. apply lines_spec in C. apply summary_spec in D. apply status_spec in S. now subst.
  - intros out x. split.
    + destruct e as [y|]; [|discriminate]. intros H. injection H as <- <-. exists rows. split; [exact H1|]. split; [now apply lines_spec|exact H2].
    + intros (rows' & A & C & B). destruct (U rows' (Some x) (conj A B)) as [-> <-]. apply lines_spec in C. now subst.
Qed.

(** ** Cases in order *)

Lemma setup_size w own m closed mats n tc : setup_ok w own m (tc_spec tc) closed mats -> setup_ok w own m (tc_spec (with_size n tc)) closed mats.
Proof. intros H. exact H. Qed.

Lemma order_passes w say b ch group crt pub priv size tc closed : hash_ok w -> aes_ok w -> pem_ok w -> cert_keys_ok w -> (forall i, isolated (ch_sch ch i)) -> (5 <= size <= 16)%nat ->
  case_in_order w b (ch_maker ch) crt pub priv size tc closed ->
  exists l, tested w say b ch group crt pub priv size tc closed (Row l group closed size R_OK None).
Proof.
  intros Hh Ha Hp Hk Is Sz ((l & N) & Et & (own & Mo & So) & P & (key & K & Lk) & Id & Io).
  exists l. constructor; [exact N|]. exists (tc_spec (with_size size tc)). split; [apply with_same|].
  assert (counter_size (tc_spec (with_size size tc)) None = size) as Cs by reflexivity.
  apply (test_passes w own (ch_maker ch) say (ch_sch ch) (ch_random ch) (tc_expect tc) b (tc_spec (with_size size tc)) (if closed then pub else crt) priv closed key Hh Ha Hp Hk Mo);
    [exact (setup_size _ _ _ _ _ _ _ So)|exact P|exact K|exact Lk|exact Id|now rewrite Cs|rewrite Cs; exact Io|exact Is|exact Et].
Qed.

Theorem all_pass w say b env read_case read args priv crt pub sizes group cases :
  hash_ok w -> aes_ok w -> pem_ok w -> cert_keys_ok w -> (forall n i, isolated (ch_sch (env n) i)) ->
  multi_command w read_case read args priv crt pub sizes group cases ->
  (forall n size tc c, In size sizes -> In tc cases -> tc_closed tc = None \/ tc_closed tc = Some c -> case_in_order w b (ch_maker (env n)) crt pub priv size tc c) ->
  exists out, test_verify_py w say b env read_case read args = (out, S_exit 0).
Proof.
  intros Hh Ha Hp Hk Is Cm Ok. pose proof (turn_exists sizes cases) as T. set (ps := all_pos 0 sizes cases) in *.
  assert (Forall (fun s => 5 <= s <= 16)%nat sizes) as Sz.
  { destruct Cm as (_ & _ & _ & texts & _ & _ & _ & _ & _ & _ & F & _). clear -F. induction F as [|t n l m (_ & _ & H) F IH]; constructor; assumption. }
  assert (forall qs k, (forall n p, nth_error qs n = Some p -> nth_error ps (k + n) = Some p) -> exists rows, List.length rows = List.length qs
    /\ Forall (fun r => row_result r = R_OK) rows
    /\ forall n r, nth_error rows n = Some r -> exists i j c size tc, nth_error ps (k + n) = Some (i, j, c) /\ nth_error sizes i = Some size /\ nth_error cases j = Some tc
       /\ tested w say b (env (k + n)%nat) group crt pub priv size tc c r) as B.
  { induction qs as [|[[i j] c] qs IH]; intros k Hq.
    - exists []. split; [reflexivity|]. split; [constructor|]. intros [|n] r E; discriminate E.
    - destruct (IH (S k)) as (rows & Ln & Fo & Hr). { intros n p E. replace (S k + n)%nat with (k + S n)%nat by lia. now apply Hq. }
      pose proof (Hq 0%nat (i, j, c) eq_refl) as E0. rewrite Nat.add_0_r in E0.
      destruct (proj1 (proj2 T i j c) (nth_error_In _ _ E0)) as (size & tc & Es & Ec & Hc).
      destruct (order_passes w say b (env k) group crt pub priv size tc c Hh Ha Hp Hk (Is k)) as (l & Te).
      { rewrite Forall_forall in Sz. apply Sz. exact (nth_error_In _ _ Es). } { apply Ok; [exact (nth_error_In _ _ Es)|exact (nth_error_In _ _ Ec)|exact Hc]. }
      exists (Row l group c size R_OK None :: rows). split; [cbn [List.length]; now rewrite Ln|]. split; [constructor; [reflexivity|exact Fo]|].
      intros [|n] r E; cbn [nth_error] in E.
      + injection E as <-. rewrite Nat.add_0_r. exists i, j, c, size, tc. auto.
      + replace (k + S n)%nat with (S k + n)%nat by lia. now apply Hr. }
  destruct (B ps 0%nat ltac:(intros n p E; exact E)) as (rows & Ln & Fo & Hr). cbn [Nat.add] in Hr.
  exists (flat_map printTestVerifyResult rows ++ [printTestVerifySummary rows]).
  apply (proj1 (multi_ends w say b env read_case read args priv crt pub sizes group cases ps Cm T)).
  exists rows, (flat_map printTestVerifyResult rows), (printTestVerifySummary rows). split; [split; [lia|exact Hr]|]. split; [exact Ln|]. split; [now apply lines_spec|].
  split; [now apply summary_spec|]. split; [reflexivity|].
  assert (forall x, x <> R_OK -> ~ Exists (fun r => row_result r = x) rows) as No.
  { intros x Nx H. apply Exists_exists in H as (r & Hi & E). rewrite Forall_forall in Fo. rewrite (Fo r Hi) in E. now apply Nx. }
  split; [now split|]. split; (split; [discriminate|]); [intros H; destruct (No R_ERROR ltac:(discriminate) H)|intros [H _]; destruct (No R_FAIL ltac:(discriminate) H)].
Qed.

(** ** Lines can be read *)

Lemma app_same_length {A} (a b c d : list A) : a ++ b = c ++ d -> List.length a = List.length c -> a = c /\ b = d.
Proof.
  revert c. induction a as [|x a IH]; intros [|y c] E L; cbn [app List.length] in *; try discriminate L; [now split|].
  injection E as -> E. injection L as L. destruct (IH c E L) as [-> ->]. now split.
Qed.
Lemma fill_right_length n s : (List.length s <= n)%nat -> List.length (fill_right n s) = n.
Proof. intros L. unfold fill_right. rewrite app_length, repeat_length. lia. Qed.
Lemma fill_left_length c n s : (List.length s <= n)%nat -> List.length (fill_left c n s) = n.
Proof. intros L. unfold fill_left. rewrite app_length, repeat_length. lia. Qed.
Lemma repeat_cut (c : N) a b s t : repeat c a ++ s = repeat c b ++ t -> (forall u, s <> c :: u) -> (forall u, t <> c :: u) -> s = t.
Proof.
  revert b. induction a as [|a IH]; intros [|b] E Ns Nt; cbn [repeat app] in E; [exact E|destruct (Ns _ E)|destruct (Nt _ (eq_sym E))|].
  injection E as E. now apply (IH b).
Qed.
Lemma fill_left_inj c n s t : fill_left c n s = fill_left c n t -> (forall u, s <> c :: u) -> (forall u, t <> c :: u) -> s = t.
Proof. unfold fill_left. apply repeat_cut. Qed.
Lemma fill_right_inj n s t : fill_right n s = fill_right n t -> (forall u, s <> u ++ [32]) -> (forall u, t <> u ++ [32]) -> s = t.
Proof.
  unfold fill_right. intros E Ns Nt. apply (f_equal (@rev N)) in E. rewrite !rev_app_distr in E.
  assert (forall k, rev (repeat 32 k) = repeat 32 k) as Rr.
  { induction k as [|k IH]; [reflexivity|]. cbn [repeat rev]. rewrite IH. clear. induction k as [|k IH]; [reflexivity|]. cbn [repeat app]. now rewrite IH. }
  rewrite !Rr in E. apply repeat_cut in E.
  - now rewrite <- (rev_involutive s), E, rev_involutive.
  - intros u H. apply (Ns (rev u)). now rewrite <- (rev_involutive s), H.
  - intros u H. apply (Nt (rev u)). now rewrite <- (rev_involutive t), H.
Qed.

Lemma size_text n : (n < 100)%nat -> (List.length (fmt_d (Z.of_nat n)) <= 2)%nat /\ forall u, fmt_d (Z.of_nat n) <> 32 :: u.
Proof.
  intros L. split.
  - do 100 (destruct n as [|n]; [vm_compute; lia|]). lia.
  - intros u E. destruct (fmt_d_digits (Z.of_nat n)) as [F _]; [lia|]. rewrite E in F. apply Forall_inv in F. cbv beta in F. lia.
Qed.

Theorem line_readable r r' : fits_columns r -> fits_columns r' -> row_line r = row_line r' ->
  row_label r = row_label r' /\ row_closed r = row_closed r' /\ row_size r = row_size r' /\ row_group r = row_group r' /\ row_result r = row_result r'.
Proof.
  intros (L1 & B1 & G1 & H1 & S1) (L2 & B2 & G2 & H2 & S2) E. unfold row_line in E.
  destruct (size_text _ S1) as [T1 U1]. destruct (size_text _ S2) as [T2 U2].
  apply app_same_length in E as [El E]; [|now rewrite !fill_right_length]. apply fill_right_inj in El; [|assumption..].
  apply app_inv_head in E. apply app_same_length in E as [Ec E]; [|rewrite !fill_left_length; [reflexivity|destruct (row_closed r'); vm_compute; lia|destruct (row_closed r); vm_compute; lia]].
  apply app_inv_head in E. apply app_same_length in E as [Es E]; [|now rewrite !fill_left_length]. apply fill_left_inj in Es; [|assumption..]. apply fmt_d_inj in Es.
  apply app_inv_head in E. apply app_same_length in E as [Eg E]; [|now rewrite !fill_left_length]. apply fill_left_inj in Eg; [|assumption..].
  apply app_inv_head in E. split; [exact El|]. split; [|split; [lia|split; [exact Eg|]]].
  - destruct (row_closed r), (row_closed r'); (reflexivity || (vm_compute in Ec; discriminate Ec)).
  - destruct (row_result r), (row_result r'); (reflexivity || (vm_compute in E; discriminate E)).
Qed.

(** ** One case *)

Theorem single_ends w say b env read_case read args closed priv pub label sp x :
  single_command w read_case read args closed priv pub label sp x ->
  (forall out st, test_verify_py w say b env read_case read args = (out, S_exit st) <->
     exists r msg, testVerify_full w (ch_maker (env 0%nat)) say (ch_sch (env 0%nat)) (ch_random (env 0%nat)) x b sp pub priv closed = Ok (r, msg)
       /\ lines_of [Row label (lit "no Group") closed (counter_size sp None) r msg] out
       /\ right_status [Row label (lit "no Group") closed (counter_size sp None) r msg] st)
  /\ (forall out e, test_verify_py w say b env read_case read args = (out, S_raised e) <->
     out = [] /\ testVerify_full w (ch_maker (env 0%nat)) say (ch_sch (env 0%nat)) (ch_random (env 0%nat)) x b sp pub priv closed = Err e).
Proof.
  intros (file & fpriv & fpub & tail & tc & -> & Ec & El & Ex & Ep & Eq & St).
  set (o := testVerify_full w (ch_maker (env 0%nat)) say (ch_sch (env 0%nat)) (ch_random (env 0%nat)) x b sp pub priv closed).
  assert (test_verify_py w say b env read_case read ((if closed then lit "closed" else lit "open") :: file :: fpriv :: fpub :: tail)
    = match o with
      | Err e => ([], S_raised e)
      | Ok (r, msg) => (printTestVerifyResult (Row label (lit "no Group") closed (counter_size sp None) r msg), S_exit (exit_status [r]))
      end) as E.
  { assert (test_verify_py w say b env read_case read ((if closed then lit "closed" else lit "open") :: file :: fpriv :: fpub :: tail)
      = test_single_py w say b (env 0%nat) read_case read closed file fpriv fpub (hd_error tail)) as ->.
    { unfold test_verify_py. destruct St as [[-> _]|(t & n & -> & _)]; destruct closed; reflexivity. }
    unfold test_single_py. rewrite Ec.
    assert (exists tc', match hd_error tail with None => inr tc | Some s => match tc_size_or_error w s with inl x => inl x | inr n => inr (with_size n tc) end end = inr tc'
      /\ tc_label tc' = Some label /\ tc_expect tc' = x /\ tc_spec tc' = sp) as (tc' & -> & El' & Ex' & Es').
    { destruct St as [[-> ->]|(t & n & -> & En & Ln & Sp)]; cbn [hd_error]; [now exists tc|]. unfold tc_size_or_error. rewrite En.
      replace ((Z.of_nat n <? 5)%Z || (16 <? Z.of_nat n)%Z) with false by lia. rewrite Nat2Z.id. exists (with_size n tc). split; [reflexivity|]. split; [exact El|]. split; [exact Ex|].
      symmetry. exact (same_size _ _ _ (tc_label tc) (tc_closed tc) (tc_expect tc) Sp). }
    rewrite Eq. cbn [bind]. rewrite Ep. cbn [bind]. rewrite El', Ex', Es'. fold o. destruct o as [[r msg]|e]; reflexivity. }
  rewrite E. destruct o as [[r msg]|e]; split.
  - intros out st. split.
    + intros H. injection H as <- <-. exists r, msg. split; [reflexivity|]. split; [apply lines_spec; cbn [flat_map]; now rewrite app_nil_r|]. now apply status_spec.
    + intros (r' & msg' & H & L & S). apply Ok_inj in H. injection H as <- <-. apply lines_spec in L. cbn [flat_map] in L. rewrite app_nil_r in L. apply status_spec in S. now subst.
  - intros out e. split; [discriminate|]. intros [_ H]. discriminate H.
  - intros out st. split; [discriminate|]. intros (r' & msg' & H & _). discriminate H.
  - intros out e'. split; [intros H; injection H as <- <-; now split|]. intros [-> H]. injection H as <-. reflexivity.
Qed.

(** ** testVerifyMulti for any cases *)
Theorem library_rows w say b env group crt pub priv default cases : forall i rows e, testVerifyMulti w say b env group crt pub priv default i cases = (rows, e) ->
  forall n r, nth_error rows n = Some r -> exists tc closed, nth_error cases n = Some tc /\ (closed = true <-> tc_closed tc = Some true)
    /\ row_closed r = closed /\ row_group r = group /\ (row_size r = default \/ ts_size (tc_spec tc) <> None) /\ (forall s, ts_size (tc_spec tc) = Some s -> row_size r = s)
    /\ ((forall l, ~ named tc l) /\ row_label r = lit "Unknown" /\ row_result r = R_ERROR
        \/ named tc (row_label r) /\ testVerify_full w (ch_maker (env (i + n)%nat)) say (ch_sch (env (i + n)%nat)) (ch_random (env (i + n)%nat)) (tc_expect tc) b (tc_spec tc)
             (if closed then pub else crt) priv closed = Ok (row_result r, row_msg r)).
Proof.
  induction cases as [|tc cases IH]; intros i rows e H n r N; cbn [testVerifyMulti] in H; [injection H as <- _; now destruct n|].
  destruct (test_row w say b (env i) group crt pub priv default tc) as [x|] eqn:T; [|injection H as <- _; now destruct n].
  destruct (testVerifyMulti w say b env group crt pub priv default (S i) cases) as [l e'] eqn:M. injection H as <- _. destruct n as [|n].
  - injection N as <-. rewrite Nat.add_0_r. exists tc, (row_closed x). split; [reflexivity|]. unfold test_row in T. cbv zeta in T.
    pose proof (named_iff tc) as Nm. apply bind_Ok in T as ((res & msg) & R & T). apply Ok_inj in T. subst x. cbn [row_closed row_group row_size row_label row_result row_msg fst snd].
    split; [destruct (tc_closed tc) as [[]|]; split; intros E; congruence|]. split; [reflexivity|]. split; [reflexivity|].
    split; [destruct (ts_size (tc_spec tc)); [right; discriminate|now left]|]. split; [intros s E; now rewrite E|].
    destruct (str_eqb (match tc_label tc with Some l0 => l0 | None => lit "Unknown" end) (lit "Unknown")) eqn:El.
    + left. split; [intros l0 H; pose proof (proj1 Nm (ex_intro _ l0 H)); discriminate|]. apply str_eqb_eq in El. apply Ok_inj in R. injection R as <- _. now split.
    + right. destruct (proj2 Nm eq_refl) as (l0 & E & Nl). rewrite E. split; [now split|exact R].
  - cbn [nth_error] in N. destruct (IH (S i) l e' M n r N) as (tc' & c & A & B). exists tc', c. split; [exact A|]. replace (i + S n)%nat with (S i + n)%nat by lia. exact B.
Qed.
