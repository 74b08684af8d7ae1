(** Which exceptions parallel verification raises. *)
From Coq Require Import Lia ZifyClasses ZifyN ZifyNat ZifyBool.
From Verif Require Import PyBase World Codec PyFloat PyTime Algo Receipt DepBase Json Pem KeyStore VerifyReceipt State DepParser Verify
  ListFacts CodecFacts CodecFacts2 SpecReceipt ReceiptFacts RoundTrip RoundTrip2 SpecDep VerifyFacts DepFacts SpecCluster SpecDoc AcceptFacts CounterFacts
  IncFacts IncTheorems StepFacts SpecAmount AmountFacts SpecClean ParFacts CleanFacts Cli.
Open Scope N_scope.
Open Scope py_scope.

Section ParRaises.
Context (w : world) (P : exn -> Prop) (HP : forall e, verdict e -> P e).
Context (key : option bytes) (HK : forall k, key = Some k -> List.length k <> 32%nat -> P InvalidKey).
Context (U : used -> Prop) (HU : forall u i, U u -> U (used_add u i)) (Hck : forall u i, U u -> raises P (used_check w u i)).
Context (ps : option str) (Hps : forall t, ps = Some t -> encodable t).

Local Ltac lib := apply HP; exact I.
Local Notation summed := (summed w P key).
Local Notation lasts reg := (forall t, s_last reg = Some t -> encodable t).

Lemma expand_raises cr : raises P (expandDEPReceipt cr).
Proof.
  unfold expandDEPReceipt, catch. destruct (utf8_decode cr) as [t|e] eqn:D; [apply raises_Ok|].
  apply utf8_decode_err in D. subst e. apply raises_Err. lib.
Qed.
Lemma expand_ok cr t : expandDEPReceipt cr = Ok t -> utf8_decode cr = Ok t /\ encodable t.
Proof. unfold expandDEPReceipt. intros E. apply catch_Ok in E. split; [exact E|]. exists cr. now apply utf8_encode_decode. Qed.

Lemma last_counter_raises k l revs : key = Some k -> Forall summed l -> Forall (fun r => raises P (cents r)) revs ->
  raises P (last_counter w k l revs) /\ forall cr, last_counter w k l revs = Ok cr -> Forall (fun r => raises P (cents r)) (snd cr).
Proof.
  intros Ek. revert revs. induction l as [|b l IH]; intros revs F Fr; cbn [last_counter].
  - split; [apply raises_Ok|]. intros cr E. apply Ok_inj in E. now subst cr.
  - pose proof (Forall_inv F) as F1. pose proof (Forall_inv_tail F) as F2. pose proof (expand_raises b) as Re. destruct (expandDEPReceipt b) as [t|e] eqn:E; cbn [bind].
    2:{ split; [apply raises_Err; now apply Re|discriminate]. }
    apply expand_ok in E as [D En]. pose proof (jws_raises w P HP t En) as Rj. destruct (fromJWSString w t) as [[ro a]|e] eqn:J; cbn [bind].
    2:{ split; [apply raises_Err; now apply Rj|discriminate]. }
    apply parse_reads in J as [-> R]. cbn [fst]. unfold andR, notR. rewrite (reads_isDummy _ _ _ R), (reads_isReversal _ _ _ R). cbn [bind].
    assert (raises P (cents ro)) as C by (apply (F1 t ro D R); congruence).
    destruct (negb (trainb ro)) eqn:T; cbn [bind].
    + destruct (negb (cancelb ro)) eqn:X; cbn [bind].
      * assert (standard ro) as S by (apply standardb_iff; apply negb_true_iff in T, X; now rewrite T, X).
        destruct (decryptTC_eq w t ro k R) as (_ & D1 & D2). destruct (Nat.eq_dec (List.length k) 32) as [L|L].
        -- destruct (D2 S L) as (ct & _ & ->). destruct (reads_ids _ _ _ R) as (a1 & b1 & A & B). unfold r1_decrypt, r1_iv. rewrite A. cbn [bind]. rewrite B. cbn [bind].
           split; [apply raises_Ok|]. intros cr E. apply Ok_inj in E. subst cr. exact Fr.
        -- rewrite (D1 S L). cbn [bind]. split; [apply raises_Err; exact (HK k Ek L)|discriminate].
      * apply IH; [exact F2|]. destruct (cancelb ro); [now constructor|exact Fr].
    + apply IH; [exact F2|]. destruct (cancelb ro); [now constructor|exact Fr].
Qed.

Lemma add_cents_raises l c : Forall (fun r => raises P (cents r)) l -> raises P (add_cents c l).
Proof.
  intros F. revert c. induction F as [|r l H F IH]; intros c; cbn [add_cents]; [apply raises_Ok|].
  apply raises_bind; [exact H|]. intros x _. apply IH.
Qed.

Lemma update_raises reg l : lasts reg -> Forall summed l ->
  raises P (updateFromDEPGroup w reg l key) /\ forall reg', updateFromDEPGroup w reg l key = Ok reg' -> lasts reg'.
Proof.
  intros Hl F. unfold updateFromDEPGroup. assert (Forall summed (rev l)) as Fr by (apply Forall_rev; exact F).
  destruct (rev l) as [|lastb rest] eqn:El.
  { split; [apply raises_Ok|]. intros reg' E. apply Ok_inj in E. now subst reg'. }
  set (m1 := match rest with [] => _ | b :: _ => _ end).
  assert (raises P m1 /\ forall x, m1 = Ok x -> forall t, x = Some t -> encodable t) as [R1 K1].
  { subst m1. destruct rest as [|b r]; [split; [apply raises_Ok|]; intros x E; apply Ok_inj in E; now subst x|].
    split; [apply raises_bind; [apply expand_raises|intros; apply raises_Ok]|]. intros x E. apply bind_Ok in E as (s & E & X). apply Ok_inj in X. subst x.
    intros t X. apply Some_inj in X. subst t. now apply expand_ok in E. }
  destruct m1 as [stlj|e]; cbn [bind]; [|split; [apply raises_Err; now apply R1|discriminate]].
  specialize (K1 _ eq_refl). clear R1.
  set (m2 := match truthy stlj with None => _ | Some s => _ end).
  assert (raises P m2 /\ forall x, m2 = Ok x -> forall r, x = Some r -> exists t, reads w t r) as [R2 K2].
  { subst m2. destruct (truthy stlj) as [s|] eqn:E; [|split; [apply raises_Ok|]; intros x X; apply Ok_inj in X; subst x; discriminate].
    apply truthy_Some in E as [E _]. split; [apply raises_bind; [apply jws_raises; [exact HP|now apply K1]|intros; apply raises_Ok]|].
    intros x X. apply bind_Ok in X as ([r a] & J & X). apply Ok_inj in X. subst x. cbn [fst]. intros r' X. apply Some_inj in X. subst r'.
    apply parse_reads in J as [_ J]. eauto. }
  destruct m2 as [stl|e]; cbn [bind]; [|split; [apply raises_Err; now apply R2|discriminate]].
  specialize (K2 _ eq_refl). clear R2.
  pose proof (expand_raises lastb) as R3. destruct (expandDEPReceipt lastb) as [s|e] eqn:E3; cbn [bind]; [|split; [apply raises_Err; now apply R3|discriminate]].
  apply expand_ok in E3 as [_ En]. pose proof (jws_raises w P HP s En) as R4.
  destruct (fromJWSString w s) as [[last a]|e] eqn:J; cbn [bind]; [|split; [apply raises_Err; now apply R4|discriminate]].
  apply parse_reads in J as [-> Rl]. cbn [fst].
  match goal with |- context [andR ?x ?y] => assert (exists b, andR x y = Ok b) as [need ->] end.
  { unfold andR, notR. rewrite (reads_isSignedBroken _ _ _ Rl). cbn [bind].
    destruct stl as [r|]; [destruct (K2 r eq_refl) as [t Rr]; rewrite (reads_notable _ _ _ Rl), (reads_isSignedBroken _ _ _ Rr)|];
      repeat match goal with |- context [if ?b then _ else _] => destruct b; cbn [bind] end; eauto. }
  cbn [bind].
  match goal with |- context [match truthy (s_start reg) with Some x => @?a x | None => ?b end] => set (m5 := match truthy (s_start reg) with Some x => a x | None => b end) end.
  assert (raises P m5) as R5.
  { subst m5. destruct (truthy (s_start reg)); [apply raises_Ok|]. apply raises_bind; [apply expand_raises|intros; apply raises_Ok]. }
  destruct m5 as [start|e]; cbn [bind]; [|split; [apply raises_Err; now apply R5|discriminate]]. clear R5.
  match goal with |- context [match truthy key with Some x => @?a x | None => ?b end] => set (m6 := match truthy key with Some x => a x | None => b end) end.
  assert (raises P m6) as R6.
  { subst m6. destruct (truthy key) as [k|] eqn:E; [|apply raises_Ok]. apply truthy_Some in E as [E _].
    rewrite <- El in Fr. destruct (last_counter_raises k (rev l) [] E Fr (Forall_nil _)) as [A B].
    rewrite El in A, B. apply raises_bind; [exact A|]. intros cr X. apply add_cents_raises. now apply B. }
  destruct m6 as [c|e]; cbn [bind]; [|split; [apply raises_Err; now apply R6|discriminate]].
  split; [apply raises_Ok|]. intros reg' X. apply Ok_inj in X. subst reg'. cbn [s_last]. intros t X. apply Some_inj in X. now subst t.
Qed.

Lemma predict_groups_raises groups reg : lasts reg -> Forall (fun g => Forall summed (fst g)) groups ->
  raises P (predict_groups w key reg groups) /\ forall reg', predict_groups w key reg groups = Ok reg' -> lasts reg'.
Proof.
  intros Hl F. revert reg Hl. induction F as [|[recs v] groups F1 F IH]; intros reg Hl; cbn [predict_groups].
  - split; [apply raises_Ok|]. intros reg' E. apply Ok_inj in E. now subst reg'.
  - cbn [fst] in F1. destruct (update_raises reg recs Hl F1) as [A B]. unfold fromDEPGroup.
    destruct (updateFromDEPGroup w reg recs key) as [r1|e]; cbn [bind]; [|split; [apply raises_Err; now apply A|discriminate]].
    apply IH. now apply B.
Qed.

Lemma predict_raises pkgs reg : lasts reg -> Forall (Forall (fun g => Forall summed (fst g))) pkgs ->
  raises P (predict w key reg pkgs) /\ forall wargs, predict w key reg pkgs = Ok wargs -> Forall (fun a => lasts (snd a)) wargs /\ map fst wargs = pkgs.
Proof.
  intros Hl F. revert reg Hl. induction F as [|p pkgs F1 F IH]; intros reg Hl; cbn [predict].
  - split; [apply raises_Ok|]. intros x E. apply Ok_inj in E. subst x. split; [constructor|reflexivity].
  - destruct (predict_groups_raises p reg Hl F1) as [A B]. destruct (predict_groups w key reg p) as [r1|e]; cbn [bind]; [|split; [apply raises_Err; now apply A|discriminate]].
    destruct (IH r1 (B r1 eq_refl)) as [C D]. destruct (predict w key r1 pkgs) as [rest|e]; cbn [bind]; [|split; [apply raises_Err; now apply C|discriminate]].
    split; [apply raises_Ok|]. intros x E. apply Ok_inj in E. subst x. destruct (D rest eq_refl) as [D1 D2].
    split; [constructor; [exact Hl|exact D1]|]. cbn [map fst]. now rewrite D2.
Qed.

Lemma package_raises ks c : raises P (packageChunkWithVerifiers w ks c).
Proof.
  unfold packageChunkWithVerifiers. generalize (List.length c =? 1)%nat. intros b. induction c as [|g c IH]; cbn [mapM]; [apply raises_Ok|].
  apply raises_bind; [|intros x _; apply raises_bind; [exact IH|intros; apply raises_Ok]].
  unfold package_group. destruct (g_cert g).
  - apply raises_bind; [apply verifyCert_raises; exact HP|intros; apply raises_Ok].
  - apply raises_check; [lib|apply raises_Ok].
Qed.
Lemma package_recs ks c p : packageChunkWithVerifiers w ks c = Ok p -> map fst p = map g_recs c.
Proof.
  intros H. apply mapM_Ok in H. induction H as [|g v c' p' H F IH]; [reflexivity|]. cbn [map]. f_equal; [|exact IH].
  unfold package_group in H. destruct (g_cert g).
  - apply bind_Ok in H as (x & _ & H). apply Ok_inj in H. now subst.
  - destruct (_ =? 1)%nat; [|discriminate]. apply Ok_inj in H. now subst.
Qed.

Lemma groups_raises groups reg u : Forall (fun g => proper (snd g)) groups -> lasts reg -> U u -> Forall (fun g => Forall summed (fst g)) groups ->
  raises P (verifyGroupsWithVerifiers w groups key ps reg u)
  /\ forall ru, verifyGroupsWithVerifiers w groups key ps reg u = Ok ru -> lasts (fst ru) /\ U (snd ru).
Proof.
  intros Pr. revert reg u. induction Pr as [|[recs v] groups Pv Pr IH]; intros reg u Hl Hu F; cbn [verifyGroupsWithVerifiers].
  - split; [apply raises_Ok|]. intros ru E. apply Ok_inj in E. now subst ru.
  - pose proof (Forall_inv F) as F1. pose proof (Forall_inv_tail F) as F2. cbn [fst snd] in *.
    destruct (group_raises w P HP key HK U HU Hck ps Hps v recs reg u Pv Hl Hu F1) as [A B].
    destruct (verifyGroup w recs v key ps reg u) as [ru|e]; cbn [bind]; [|split; [apply raises_Err; now apply A|discriminate]].
    destruct (B ru eq_refl) as [B1 B2]. now apply IH.
Qed.

(** A package and the predicted state *)
Definition task_ready (a : list vgroup * regstate) : Prop :=
  Forall (fun g => proper (snd g)) (fst a) /\ lasts (snd a) /\ Forall (fun g => Forall summed (fst g)) (fst a).

Lemma run_task_raises pkgs u : U u -> Forall task_ready pkgs ->
  raises P (run_task w key ps pkgs u)
  /\ forall ru, run_task w key ps pkgs u = Ok ru -> List.length (fst ru) = List.length pkgs /\ Forall (fun r => lasts r) (fst ru) /\ U (snd ru).
Proof.
  intros Hu F. revert u Hu. induction F as [|[p reg] pkgs (F1 & F2 & F3) F IH]; intros u Hu; cbn [run_task].
  - split; [apply raises_Ok|]. intros ru E. apply Ok_inj in E. subst ru. split; [reflexivity|]. split; [constructor|exact Hu].
  - cbn [fst snd] in *. destruct (groups_raises p reg u F1 F2 Hu F3) as [A B].
    destruct (verifyGroupsWithVerifiers w p key ps reg u) as [ru|e]; cbn [bind]; [|split; [apply raises_Err; now apply A|discriminate]].
    destruct (B ru eq_refl) as [B1 B2]. destruct (IH (snd ru) B2) as [C D].
    destruct (run_task w key ps pkgs (snd ru)) as [rest|e]; cbn [bind]; [|split; [apply raises_Err; now apply C|discriminate]].
    split; [apply raises_Ok|]. intros x E. apply Ok_inj in E. subst x. cbn [fst snd List.length]. destruct (D rest eq_refl) as (D1 & D2 & D3).
    split; [now rewrite D1|]. split; [now constructor|exact D3].
Qed.

Lemma slices_fuel_Forall {A} (Q : A -> Prop) fuel n (l : list A) : Forall Q l -> Forall (fun s => Forall Q s) (slices_fuel fuel n l).
Proof.
  revert l. induction fuel as [|f IH]; intros l F; destruct l as [|a l]; cbn [slices_fuel]; try constructor.
  - apply Forall_forall. intros x Hx. apply (proj1 (Forall_forall _ _) F). rewrite <- (firstn_skipn n (a :: l)). apply in_or_app. now left.
  - apply IH. apply Forall_forall. intros x Hx. apply (proj1 (Forall_forall _ _) F). rewrite <- (firstn_skipn n (a :: l)). apply in_or_app. now right.
Qed.
Lemma slices_nonempty {A} n (l : list A) : l <> [] -> (1 <= n)%nat -> exists a s r, slices n l = (a :: s) :: r.
Proof.
  intros N L. unfold slices. destruct l as [|a l]; [congruence|]. cbn [List.length slices_fuel]. destruct n; [lia|]. cbn [firstn]. eauto.
Qed.

Lemma partition_spec {A} (l : list (result A)) : Forall (fun a => In (Ok a) l) (fst (partition_results l)) /\ Forall (fun e => In (Err e) l) (snd (partition_results l)).
Proof.
  induction l as [|[a|e] l [IH1 IH2]]; cbn [partition_results fst snd]; [split; constructor| |]; split.
  1: constructor; [now left|]. 4: constructor; [now left|].
  all: first [eapply Forall_impl; [|exact IH1]|eapply Forall_impl; [|exact IH2]]; intros x X; now right.
Qed.

Context (HM : forall u v, U u -> U v -> raises P (used_merge1 w u v) /\ forall u', used_merge1 w u v = Ok u' -> U u').
Lemma used_merge_raises u l : U u -> Forall U l -> raises P (used_merge w u l) /\ forall u', used_merge w u l = Ok u' -> U u'.
Proof.
  intros Hu F. revert u Hu. induction F as [|v l Hv F IH]; intros u Hu; cbn [used_merge].
  - split; [apply raises_Ok|]. intros u' E. apply Ok_inj in E. now subst.
  - destruct (HM u v Hu Hv) as [A B]. destruct (used_merge1 w u v) as [u1|e]; cbn [bind]; [|split; [apply raises_Err; now apply A|discriminate]].
    apply IH. now apply B.
Qed.

Lemma task_size_pos pool n : (1 <= n)%nat -> pool <> Some 0%nat -> (1 <= task_size pool n)%nat.
Proof.
  intros L N. unfold task_size. destruct pool as [k|]; [|exact L]. unfold ceil_div. destruct k as [|k]; [congruence|].
  apply Nat.div_le_lower_bound; lia.
Qed.

Lemma collect_raises sch b pkgs u : U u -> U (used_new b) -> pkgs <> [] -> sch_pool sch <> Some 0%nat -> Forall task_ready pkgs ->
  raises P (collect w sch key ps b pkgs u)
  /\ forall ru, collect w sch key ps b pkgs u = Ok ru -> lasts (fst ru) /\ U (snd ru).
Proof.
  intros Hu Hn NE Po F. unfold collect, run_batch.
  set (tasks := slices (task_size (sch_pool sch) (List.length pkgs)) pkgs).
  set (results := map (fun t => run_task w key ps t (used_new b)) tasks).
  assert (Forall (fun t => Forall task_ready t) tasks) as Ft by now apply slices_fuel_Forall.
  assert (exists a s r, tasks = (a :: s) :: r) as (a0 & s0 & r0 & Et).
  { apply slices_nonempty; [exact NE|]. apply task_size_pos; [|exact Po]. destruct pkgs; [congruence|cbn [List.length]; lia]. }
  assert (forall x, In x results -> exists t, In t tasks /\ x = run_task w key ps t (used_new b)) as Hr.
  { intros x Hx. unfold results in Hx. apply in_map_iff in Hx as (t & <- & Ht). eauto. }
  pose proof (partition_spec results) as [S1 S2]. destruct (partition_results results) as [oks errs] eqn:Ep. cbn [fst snd] in S1, S2.
  destruct errs as [|e es].
  2:{ cbn [bind]. split; [|discriminate]. apply raises_Err.
      assert (In (nth (sch_pick sch (e :: es)) (e :: es) e) (e :: es)) as Hi.
      { destruct (nth_in_or_default (sch_pick sch (e :: es)) (e :: es) e) as [H| ->]; [exact H|now left]. }
      apply (proj1 (Forall_forall _ _) S2) in Hi. destruct (Hr _ Hi) as (t & Ht & Hx).
      destruct (run_task_raises t (used_new b) Hn (proj1 (Forall_forall _ _) Ft t Ht)) as [A _]. apply A. now symmetry. }
  cbn [bind fst snd].
  assert (Forall (fun o => Forall (fun r => lasts r) (fst o) /\ U (snd o)) oks) as Fo.
  { apply Forall_forall. intros o Ho. apply (proj1 (Forall_forall _ _) S1) in Ho. destruct (Hr _ Ho) as (t & Ht & Hx).
    destruct (run_task_raises t (used_new b) Hn (proj1 (Forall_forall _ _) Ft t Ht)) as [_ B]. destruct (B o (eq_sym Hx)) as (_ & B2 & B3). auto. }
  destruct (used_merge_raises u (flat_map (fun o : list regstate * used => map (fun _ => snd o) (fst o)) oks) Hu) as [A B].
  { apply Forall_forall. intros v Hv. apply in_flat_map in Hv as (o & Ho & Hv). apply in_map_iff in Hv as (r & <- & _).
    exact (proj2 (proj1 (Forall_forall _ _) Fo o Ho)). }
  destruct (used_merge w u _) as [u'|e]; cbn [bind]; [|split; [apply raises_Err; now apply A|discriminate]].
  assert (flat_map (@fst (list regstate) used) oks <> []) as NF.
  { apply partition_ok in Ep. unfold results in Ep. rewrite Et in Ep. cbn [map] in Ep.
    destruct oks as [|o oks]; [discriminate|]. cbn [map] in Ep. injection Ep as Eo _.
    rewrite Et in Ft. destruct (run_task_raises (a0 :: s0) (used_new b) Hn (Forall_inv Ft)) as [_ C]. destruct (C o Eo) as (C1 & _).
    cbn [flat_map]. intros X. apply app_eq_nil in X as [X _]. rewrite X in C1. discriminate. }
  destruct (rev (flat_map (@fst (list regstate) used) oks)) as [|reg l] eqn:Er.
  { exfalso. apply NF. rewrite <- (rev_involutive (flat_map _ oks)), Er. reflexivity. }
  split; [apply raises_Ok|]. intros ru X. apply Ok_inj in X. subst ru. cbn [fst snd]. split; [|now apply B].
  assert (In reg (flat_map (@fst (list regstate) used) oks)) as Hi by (rewrite in_rev, Er; now left).
  apply in_flat_map in Hi as (o & Ho & Hi). destruct (proj1 (Forall_forall _ _) Fo o Ho) as [L _]. exact (proj1 (Forall_forall _ _) L reg Hi).
Qed.

Lemma packages_raises ks cs : raises P (mapM (packageChunkWithVerifiers w ks) cs).
Proof.
  induction cs as [|c cs IH]; cbn [mapM]; [apply raises_Ok|]. apply raises_bind; [apply package_raises|intros x _].
  apply raises_bind; [exact IH|intros; apply raises_Ok].
Qed.

Lemma packages_summed ks cs pkgs : mapM (packageChunkWithVerifiers w ks) cs = Ok pkgs -> Forall (Forall (fun g => Forall summed (g_recs g))) cs ->
  Forall (Forall (fun g => Forall summed (fst g))) pkgs.
Proof.
  intros H F. apply mapM_Ok in H. revert F. induction H as [|c p cs pkgs H _ IH]; intros F; [constructor|].
  inversion F as [|? ? F1 F2]; subst. constructor; [|now apply IH]. apply package_recs in H. clear -H F1.
  rewrite <- (Forall_map fst (fun r => Forall summed r)). rewrite H. rewrite Forall_map. exact F1.
Qed.

Lemma ready pkgs wargs reg : lasts reg -> all_proper pkgs -> Forall (Forall (fun g => Forall summed (fst g))) pkgs ->
  predict w key reg pkgs = Ok wargs -> Forall task_ready wargs.
Proof.
  intros Hl Pr F H. destruct (predict_raises pkgs reg Hl F) as [_ B]. destruct (B wargs H) as [B1 B2].
  rewrite <- B2 in Pr, F. unfold all_proper in Pr. rewrite Forall_map in Pr, F. apply Forall_forall. intros a Ha.
  split; [|split].
  - exact (proj1 (Forall_forall _ _) Pr a Ha).
  - exact (proj1 (Forall_forall _ _) B1 a Ha).
  - exact (proj1 (Forall_forall _ _) F a Ha).
Qed.

Lemma par_batches_raises sch ks b batches e pending reg u : sch_pool sch <> Some 0%nat -> U (used_new b) ->
  Forall (fun cs => cs <> [] /\ Forall (Forall (fun g => Forall summed (g_recs g))) cs) batches -> (forall x, e = Some x -> P x) ->
  lasts reg -> U u -> (batches = [] -> e = None -> pending <> None) ->
  (forall p, pending = Some p -> p <> [] /\ Forall task_ready p) ->
  raises P (par_batches w sch ks key ps b batches e pending reg u).
Proof.
  intros Po Hn F He. revert pending reg u. induction F as [|cs batches [NE F1] F IH]; intros pending reg u Hl Hu Hx Hp; cbn [par_batches].
  - destruct e as [x|]; [apply raises_Err; now apply He|]. destruct pending as [p|]; [|now contradiction Hx].
    destruct (Hp p eq_refl) as [N R]. now apply collect_raises.
  - apply raises_bind; [apply packages_raises|]. intros pkgs Ek.
    set (m := match pending with None => _ | Some p => _ end).
    assert (raises P m /\ forall ru, m = Ok ru -> lasts (fst ru) /\ U (snd ru)) as [R1 R2].
    { subst m. destruct pending as [p|].
      - destruct (Hp p eq_refl) as [N R]. now apply collect_raises.
      - split; [apply raises_Ok|]. intros ru E. apply Ok_inj in E. now subst ru. }
    apply raises_bind; [exact R1|]. intros ru Er. destruct (R2 ru Er) as [Hl' Hu'].
    pose proof (packages_summed _ _ _ Ek F1) as Fs. pose proof (package_all_proper _ _ _ _ Ek) as Pr.
    destruct (predict_raises pkgs (fst ru) Hl' Fs) as [Q1 Q2]. apply raises_bind; [exact Q1|]. intros wargs Ew.
    apply IH; [exact Hl'|exact Hu'|discriminate|]. intros p X. apply Some_inj in X. subst p. split.
    + intros ->. apply predict_length in Ew. apply mapM_Ok, Forall2_length in Ek. destruct cs; [congruence|]. destruct pkgs; discriminate.
    + now apply (ready pkgs wargs (fst ru)).
Qed.

Lemma chunks_for_procs_batches {A} (Q : A -> Prop) n (cs : list A) e : forall ret, Forall Q cs -> Forall Q ret ->
  Forall (fun b => b <> [] /\ Forall Q b) (fst (chunks_for_procs n cs ret e)) /\ snd (chunks_for_procs n cs ret e) = e
  /\ (e = None -> cs <> [] \/ ret <> [] -> fst (chunks_for_procs n cs ret e) <> []).
Proof.
  induction cs as [|c cs IH]; intros ret F Fr; cbn [chunks_for_procs].
  - destruct e as [x|]; [split; [constructor|]; split; [reflexivity|discriminate]|].
    destruct ret as [|r ret]; [split; [constructor|]; split; [reflexivity|]; intros _ [H|H]; congruence|].
    split; [constructor; [split; [discriminate|exact Fr]|constructor]|]. split; [reflexivity|]. discriminate.
  - inversion F as [|? ? F1 F2]; subst. assert (Forall Q (ret ++ [c])) as Fr' by (apply Forall_app; split; [exact Fr|now constructor]).
    assert (ret ++ [c] <> []) as N by (destruct ret; discriminate).
    cbv zeta. destruct (n <=? List.length (ret ++ [c]))%nat.
    + destruct (IH [] F2 (Forall_nil _)) as (A1 & A2 & _). destruct (chunks_for_procs n cs [] e) as [l x]. cbn [s_cons fst snd] in *. split.
      * constructor; [now split|exact A1].
      * split; [exact A2|]. discriminate.
    + destruct (IH (ret ++ [c]) F2 Fr') as (A1 & A2 & A3). split; [exact A1|]. split; [exact A2|]. intros E _. apply A3; auto.
Qed.

Lemma par_body_raises sch ks s reg u : sch_pool sch <> Some 0%nat -> U (used_new (backend_of u)) ->
  lasts reg -> U u -> Forall (Forall (fun g => Forall summed (g_recs g))) (fst s) -> (forall e, snd s = Some e -> P e) ->
  (snd s = None -> fst s <> []) -> raises P (par_body w sch ks key s (ps, reg, u)).
Proof.
  intros Po Hn Hl Hu F He NE. unfold par_body, getChunksForProcs. cbv zeta.
  destruct (chunks_for_procs_batches (Forall (fun g => Forall summed (g_recs g))) (sch_nprocs sch) (fst s) (snd s) [] F (Forall_nil _)) as (A1 & A2 & A3).
  apply par_batches_raises; [exact Po|exact Hn|exact A1|intros x X; apply He; rewrite <- A2; exact X|exact Hl|exact Hu| |discriminate].
  intros B E. assert (snd s = None) as E' by (rewrite <- A2; exact E). clear E. rename E' into E. exfalso. apply (A3 E); [|exact B]. left. now apply NE.
Qed.
End ParRaises.

(** ** The chunks of the dictionary parser *)
Section Chunks.
Context (Q : bytes -> Prop).
Local Notation allQ := (Forall (fun g => Forall Q (g_recs g))).

Lemma gen_recs_texts n c l recs : forall chunk_ len next, (forall j b, In j recs -> shrinkJ j = Ok b -> Q b) -> allQ chunk_ -> Forall Q next ->
  Forall (fun c => allQ c) (fst (gen_recs n c l recs chunk_ len next))
  /\ forall chunk' len' next', snd (gen_recs n c l recs chunk_ len next) = Ok (chunk', len', next') -> allQ chunk' /\ Forall Q next'.
Proof.
  induction recs as [|j recs IH]; intros chunk_ len next H Hc Hn; cbn [gen_recs].
  - cbn [fst snd]. split; [constructor|]. intros chunk' len' next' E. apply Ok_inj in E. injection E as <- _ <-. auto.
  - destruct (shrinkJ j) as [b|e] eqn:S; [|cbn [fst snd]; split; [constructor|discriminate]].
    assert (Forall Q (next ++ [b])) as Hn'.
    { apply Forall_app. split; [exact Hn|]. constructor; [|constructor]. apply (H j); [now left|exact S]. }
    assert (forall j b, In j recs -> shrinkJ j = Ok b -> Q b) as H' by (intros; eapply H; [right|]; eassumption).
    cbv zeta. destruct (n <=? Datatypes.S len)%nat; [|now apply IH].
    destruct (IH [] 0%nat [] H' (Forall_nil _) (Forall_nil _)) as [A B]. cbn [fst snd]. split; [|exact B].
    constructor; [|exact A]. apply Forall_app. split; [exact Hc|]. constructor; [exact Hn'|constructor].
Qed.

Lemma gen_chunks_texts w n groups : forall chunk_ len,
  (forall j p, In j groups -> parseDEPGroup w j = Ok p -> forall x b, In x (fst (fst p)) -> shrinkJ x = Ok b -> Q b) -> allQ chunk_ ->
  Forall (fun c => allQ c) (fst (gen_chunks w n groups chunk_ len)).
Proof.
  induction groups as [|g groups IH]; intros chunk_ len H Hc; cbn [gen_chunks].
  - destruct (0 <? len)%nat; cbn [s_cons s_end fst]; [constructor; [exact Hc|constructor]|constructor].
  - destruct (parseDEPGroup w g) as [[[recs c] l]|e] eqn:Eg; [|constructor].
    destruct (gen_recs_texts n c l recs chunk_ len []) as [A B].
    { intros j b Hj. exact (H g (recs, c, l) (or_introl eq_refl) Eg j b Hj). }
    { exact Hc. }
    { constructor. }
    destruct (gen_recs n c l recs chunk_ len []) as [done [[[chunk' len'] next']|e]]; cbn [fst snd] in *; [|exact A].
    destruct (B chunk' len' next' eq_refl) as [B1 B2]. apply Forall_app. split; [exact A|].
    apply IH; [intros j p Hj; exact (H j p (or_intror Hj))|]. destruct next' as [|x next']; [exact B1|].
    apply Forall_app. split; [exact B1|]. constructor; [exact B2|constructor].
Qed.

Lemma gen_groups_all w groups :
  (forall j p, In j groups -> parseDEPGroup w j = Ok p -> forall x b, In x (fst (fst p)) -> shrinkJ x = Ok b -> Q b) ->
  Forall (fun c => allQ c) (fst (gen_groups w groups)).
Proof.
  induction groups as [|g groups IH]; intros H; cbn [gen_groups]; [constructor|].
  specialize (IH (fun j p Hj => H j p (or_intror Hj))).
  destruct (do p <- parseDEPGroup w g; do recs <- mapM shrinkJ (fst (fst p)); Ok (DGroup recs (snd (fst p)) (snd p))) as [dg|x] eqn:E; [|constructor].
  destruct (g_recs dg) as [|b bs] eqn:Er; [exact IH|]. cbn [s_cons fst]. constructor; [|exact IH]. constructor; [|constructor].
  apply bind_Ok in E as (p & Ep & E). apply bind_Ok in E as (recs & Es & E). apply Ok_inj in E. subst dg. cbn [g_recs].
  apply Forall_forall. intros y Hy. destruct (mapM_In _ _ _ _ Es Hy) as (x & Hx & Sx). exact (H g p (or_introl eq_refl) Ep x y Hx Sx).
Qed.
End Chunks.

Lemma parsed_texts w dep d js j p x b : receipts_are_texts dep -> dep = JDict d -> dict_get d k_bg = Some (JList js) -> In j js ->
  parseDEPGroup w j = Ok p -> In x (fst (fst p)) -> shrinkJ x = Ok b -> exists t, text_in dep t /\ utf8_decode b = Ok t.
Proof.
  intros Ht -> E Hj Ep Hx Sx. apply shrink_text in Sx as (t & -> & Dt). exists t. split; [|exact Dt].
  unfold parseDEPGroup in Ep. destruct j as [| | | | | |g]; try discriminate. destruct (dict_get g k_recs) as [jr|] eqn:D1; [|discriminate].
  destruct (dict_get g k_cert) as [jc|]; [|discriminate]. destruct (dict_get g k_certs) as [jl|]; [|discriminate].
  apply bind_Ok in Ep as (l & Il & Ep).
  assert (fst (fst p) = l) as Hp.
  { destruct jc; try discriminate. destruct jl; try discriminate. apply bind_Ok in Ep as (c & _ & Ep). apply bind_Ok in Ep as (ch & _ & Ep).
    apply Ok_inj in Ep. now subst p. }
  rewrite Hp in Hx. destruct (Ht d js g jr eq_refl E Hj D1) as (texts & ->). cbn [iter] in Il. apply Ok_inj in Il. subst l.
  apply (text_dict d k_bg (JList js)); [now apply dict_get_In|]. apply (text_list _ (JDict g)); [exact Hj|].
  apply (text_dict g k_recs (JList (map JStr texts))); [now apply dict_get_In|]. apply (text_list _ (JStr t)); [exact Hx|constructor].
Qed.

Lemma dict_chunk_texts w nparts dep n : receipts_are_texts dep ->
  Forall (Forall (fun g => Forall (fun cr => exists t, text_in dep t /\ utf8_decode cr = Ok t) (g_recs g))) (fst (parse_dict w nparts dep n))
  /\ (snd (parse_dict w nparts dep n) = None -> fst (parse_dict w nparts dep n) <> []).
Proof.
  intros Ht. unfold parse_dict. destruct dep as [| | | | | |d] eqn:Ed; try (split; [constructor|discriminate]). rewrite <- Ed in *.
  destruct (dict_get d k_bg) as [jb|] eqn:E; [|split; [constructor|discriminate]].
  destruct jb as [| | | | |[|j js]|]; try (split; [constructor|discriminate]). cbv zeta.
  set (m := if ((1 <? nparts) && (n =? 0))%nat then ceil_div (totalRecsInDictDEP d) nparts else n).
  assert (Forall (Forall (fun g => Forall (fun cr => exists t, text_in dep t /\ utf8_decode cr = Ok t) (g_recs g))) (fst (groupChunkGen w m (j :: js)))) as F.
  { unfold groupChunkGen. destruct (m =? 0)%nat; [apply gen_groups_all|apply gen_chunks_texts; [|constructor]];
      intros g p Hg Ep x b Hx Sx; exact (parsed_texts w dep d (j :: js) g p x b Ht Ed E Hg Ep Hx Sx). }
  destruct (groupChunkGen w m (j :: js)) as [[|c cs] [e|]]; cbn [fst snd s_raise] in *; split; try exact F; try discriminate.
Qed.

(** ** Parallel verification of a document *)
Lemma merge_ids_raises (P : exn -> Prop) w ids : (forall x, verdict x -> P x) -> forall l, raises P (used_merge_ids w (Unique l) ids)
  /\ forall u', used_merge_ids w (Unique l) ids = Ok u' -> backend_of u' = B_unique.
Proof.
  intros HP. induction ids as [|i ids IH]; intros l; cbn [used_merge_ids].
  - split; [apply raises_Ok|]. intros u' E. apply Ok_inj in E. now subst.
  - pose proof (used_check_raises P w (Unique l) i HP ltac:(discriminate)) as R.
    destruct (used_check w (Unique l) i); cbn [bind]; [|split; [apply raises_Err; now apply R|discriminate]].
    cbn [used_add]. destruct (mem i l); apply IH.
Qed.
Lemma backend_add u i : backend_of (used_add u i) = backend_of u.
Proof. destruct u as [l|a b]; cbn [used_add]; [destruct (mem i l); reflexivity|]. now destruct a. Qed.
Lemma merge1_raises (P : exn -> Prop) w u v : (forall x, verdict x -> P x) -> (backend_of u = B_natural -> P PyTypeError /\ P PyValueError) ->
  backend_of v = backend_of u -> raises P (used_merge1 w u v) /\ forall u', used_merge1 w u v = Ok u' -> backend_of u' = backend_of u.
Proof.
  intros HP N E. destruct u as [l|a b], v as [l'|a' b']; cbn [backend_of] in E; try discriminate; cbn [used_merge1].
  - now apply merge_ids_raises.
  - pose proof (used_check_raises P w (Natural a b)) as R.
    destruct a' as [mi|]; [|split; [apply raises_Ok|]; intros u' X; apply Ok_inj in X; now subst].
    destruct b' as [ma|]; [|split; [apply raises_Ok|]; intros u' X; apply Ok_inj in X; now subst].
    specialize (R mi HP). destruct (used_check w (Natural a b) mi) as [x|e]; cbn [bind].
    + split; [apply raises_Ok|]. intros u' X. apply Ok_inj in X. subst u'. now rewrite !backend_add.
    + split; [|discriminate]. apply raises_Err. apply R; [|reflexivity]. intros ? ? _. now apply N.
Qed.

(** What the stream of chunks must satisfy *)
Definition from_texts (doc : json) (s : stream chunk) : Prop :=
  Forall (Forall (fun g => Forall (fun cr => exists t, text_in doc t /\ utf8_decode cr = Ok t) (g_recs g))) (fst s)
  /\ (snd s = None -> fst s <> []).

Lemma verifyParsed_raises (X : exn -> Prop) w sch doc s ks key c idx c' e : sch_pool sch <> Some 0%nat -> from_texts doc s ->
  (forall x, snd s = Some x -> X x) -> state_encodes c ->
  verifyParsedDEP w sch s ks key c idx = (c', Some e) ->
  library_exn e \/ X e
  \/ ((e = PyOverflowError \/ e = PyValueError) /\ key <> None /\ amounts_fail w doc e)
  \/ ((e = PyTypeError \/ e = PyValueError) /\ exists a b, c_used c = Natural a b).
Proof.
  intros Po [T1 T2] Hx Hs H. unfold verifyParsedDEP in H.
  set (P := fun e => library_exn e \/ X e \/ ((e = PyOverflowError \/ e = PyValueError) /\ key <> None /\ amounts_fail w doc e)
    \/ ((e = PyTypeError \/ e = PyValueError) /\ exists a b, c_used c = Natural a b)).
  change (P e). assert (forall x, library_exn x -> P x) as HP by (intros x E; now left).
  assert (forall x, verdict x -> P x) as HV by (intros x E; apply HP; now apply verdict_library).
  assert (forall k, key = Some k -> List.length k <> 32%nat -> P InvalidKey) as HI by (intros; apply HP; exact I).
  apply (with_register_raises P c idx _ c' e HP) in H; [exact H| |exact Hs].
  intros ps reg u _ Hps Hl ->.
  assert (backend_of (c_used c) = B_natural -> P PyTypeError /\ P PyValueError) as HN.
  { intros B. assert (exists a b, c_used c = Natural a b) as N by (destruct (c_used c) as [l|a b]; [discriminate|eauto]). split; right; right; right; auto. }
  apply (par_body_raises w P HV key HI (fun u => backend_of u = backend_of (c_used c))).
  - intros u i K. now rewrite backend_add.
  - intros u i K. apply used_check_raises; [exact HV|]. intros a b ->. apply HN. now rewrite <- K.
  - exact Hps.
  - intros u v K1 K2. destruct (merge1_raises P w u v HV) as [A B]; [intros E; apply HN; congruence|congruence|].
    split; [exact A|]. intros u' E. rewrite (B u' E). exact K1.
  - exact Po.
  - destruct (c_used c); reflexivity.
  - exact Hl.
  - reflexivity.
  - eapply Forall_impl; [|exact T1]. intros ch Fc. eapply Forall_impl; [|exact Fc]. intros g Fg. eapply Forall_impl; [|exact Fg].
    intros cr (t & T & D) t' r D' R Hk x E. rewrite D in D'. apply Ok_inj in D'. subst t'.
    right. right. left. split; [exact (cents_err _ _ E)|]. split; [exact Hk|]. exists t, r. auto.
  - intros x E. right. left. now apply Hx.
  - exact T2.
Qed.

Theorem verifyParsedDEP_raises w sch nparts dep n ks key c idx c' e : sch_pool sch <> Some 0%nat ->
  receipts_are_texts dep -> texts_encode dep -> state_encodes c ->
  verifyParsedDEP w sch (parse_dict w nparts dep n) ks key c idx = (c', Some e) ->
  library_exn e
  \/ ((e = PyOverflowError \/ e = PyValueError) /\ key <> None /\ amounts_fail w dep e)
  \/ ((e = PyTypeError \/ e = PyValueError) /\ exists a b, c_used c = Natural a b).
Proof.
  intros Po Ht He Hs H. destruct (verifyParsed_raises library_exn w sch dep (parse_dict w nparts dep n) ks key c idx c' e Po) as [A|[A|A]]; auto.
  - exact (dict_chunk_texts w nparts dep n Ht).
  - intros x X. destruct (parse_dict w nparts dep n) as [chunks o] eqn:Ep. cbn [snd] in X. subst o.
    destruct (dict_regular _ _ _ _ _ _ Ht Ep) as [D|(-> & s & T & S)]; [now apply dep_library|].
    destruct (He s T) as [b B]. congruence.
Qed.

(** ** The chunks of the incremental parsers *)
Section Incremental.
Context (Q : bytes -> Prop).
Local Notation allQ := (Forall (fun g => Forall Q (g_recs g))).
Definition holds (d : dstate) : Prop := allQ (d_chunk d) /\ Forall Q (d_recs d).

Lemma merge_holds d : holds d -> holds (mergeIntoChunk d).
Proof.
  intros [A B]. unfold mergeIntoChunk. destruct (d_recs d) as [|r l] eqn:E; [split; [exact A|rewrite E; exact B]|].
  split; cbn [d_chunk d_recs]; [|constructor]. apply Forall_app. split; [exact A|]. constructor; [exact B|constructor].
Qed.
Lemma get_holds m d : holds d -> allQ (fst (getChunk m d)) /\ holds (snd (getChunk m d)).
Proof.
  intros H. unfold getChunk. cbv zeta. assert (holds (if incomplete m then mergeIntoChunk d else d)) as H' by (destruct (incomplete m); [now apply merge_holds|exact H]).
  generalize dependent (if incomplete m then mergeIntoChunk d else d). intros d2 H'. destruct (_ <=? 0)%nat; cbn [fst snd]; [split; [constructor|exact H']|].
  split; [apply H'|]. split; cbn [d_chunk d_recs]; [constructor|apply H'].
Qed.
Lemma set_holds d m : holds d -> holds (set_mode d m).
Proof. intros H. exact H. Qed.

Lemma parse_holds w d p e d' : (forall s b, e = E_string s -> shrinkDEPReceipt s = Ok b -> Q b) -> holds d -> d_parse w d p e = Ok d' -> holds d'.
Proof.
  intros He Hd H. unfold d_parse in H.
  repeat first
    [ discriminate
    | match type of H with Ok _ = Ok _ => apply Ok_inj in H; subst d' end
    | match type of H with bind (shrinkDEPReceipt ?s) _ = _ => destruct (shrinkDEPReceipt s) eqn:ES; cbn [bind] in H; [|discriminate] end
    | match type of H with bind (parseDEPCert ?w ?s) _ = _ => destruct (parseDEPCert w s); cbn [bind] in H; [|discriminate] end
    | match type of H with bind (if ?b then _ else _) _ = _ => destruct b; cbn [bind] in H end
    | match type of H with bind (bind (parseDEPCert ?w ?s) _) _ = _ => destruct (parseDEPCert w s); cbn [bind] in H; [|discriminate] end
    | match type of H with (match ?b with _ => _ end) = _ => destruct b eqn:? end ];
  try exact Hd; try (apply set_holds; first [exact Hd|apply merge_holds; exact Hd]); try (split; cbn [d_chunk d_recs]; [apply Hd|first [apply Hd|constructor]]; fail).
  all: split; cbn [d_chunk d_recs]; [apply Hd|]; apply Forall_app; split; [apply Hd|]; constructor; [eapply He; [reflexivity|exact ES]|constructor].
Qed.

Lemma need_holds w kind doc i d d' : holds d -> needCerts w kind doc i d = Ok d' -> holds d'.
Proof.
  intros H E. unfold needCerts in E. destruct kind; [discriminate|apply Ok_inj in E; now subst|].
  apply bind_Ok in E as (a & _ & E). apply bind_Ok in E as (b & _ & E). apply bind_Ok in E as (c & _ & E). apply bind_Ok in E as (l & _ & E).
  apply bind_Ok in E as (ch & _ & E). apply Ok_inj in E. subst d'. exact H.
Qed.

Lemma loop_holds w kind doc n evs : forall d got, (forall p s b, In (p, E_string s) evs -> shrinkDEPReceipt s = Ok b -> Q b) -> holds d ->
  Forall (fun c => allQ c) (fst (inc_loop w kind doc n evs d got))
  /\ (got = false -> snd (inc_loop w kind doc n evs d got) = None -> fst (inc_loop w kind doc n evs d got) <> []).
Proof.
  induction evs as [|[p e] evs IH]; intros d got He Hd; cbn [inc_loop].
  - destruct (get_holds (d_mode d) d Hd) as [A _]. destruct (fst (getChunk (d_mode d) d)) as [|g c].
    + destruct got; cbn [s_end s_raise fst snd]; split; try constructor; discriminate.
    + cbn [s_cons s_end fst snd]. split; [constructor; [exact A|constructor]|discriminate].
  - assert (forall p s b, In (p, E_string s) evs -> shrinkDEPReceipt s = Ok b -> Q b) as He' by (intros; eapply He; [right|]; eassumption).
    destruct (d_parse w d p e) as [d'|x] eqn:P; [|split; [constructor|discriminate]].
    apply parse_holds in P; [|intros s b ->; apply (He p); now left|exact Hd].
    cbv zeta. destruct (d_ready (d_mode d) n d'); [|now apply IH].
    destruct (match needCrt (d_mode d) d' with None => Ok d' | Some i => needCerts w kind doc i d' end) as [d2|x] eqn:E; [|split; [constructor|discriminate]].
    assert (holds d2) as H2 by (destruct (needCrt (d_mode d) d'); [eapply need_holds; eassumption|apply Ok_inj in E; now subst]).
    destruct (get_holds (d_mode d) d2 H2) as [A B]. destruct (IH _ true He' B) as [C _].
    cbn [s_cons fst snd]. split; [constructor; [exact A|exact C]|discriminate].
Qed.
End Incremental.

Lemma inc_texts w kind doc n : from_texts doc (parse_inc w kind doc n).
Proof.
  unfold from_texts, parse_inc.
  destruct (loop_holds (fun cr => exists t, text_in doc t /\ utf8_decode cr = Ok t) w kind doc n (events [] doc) d_init false) as [A B].
  - intros p s b H S. exists s. split; [exact (texts_of_events _ _ _ _ H)|]. now apply utf8_decode_encode.
  - split; constructor.
  - split; [exact A|]. intros E. now apply B.
Qed.

Theorem verify_file_raises w sch kind doc n ks key c idx c' e : sch_pool sch <> Some 0%nat ->
  texts_encode doc -> state_encodes c ->
  verifyParsedDEP w sch (parse_inc w kind doc n) ks key c idx = (c', Some e) ->
  library_exn e
  \/ (kind = P_file /\ n <> 0%nat /\ (e = PyIndexError \/ e = PyTypeError))
  \/ ((e = PyOverflowError \/ e = PyValueError) /\ key <> None /\ amounts_fail w doc e)
  \/ ((e = PyTypeError \/ e = PyValueError) /\ exists a b, c_used c = Natural a b).
Proof.
  intros Po He Hs H.
  destruct (verifyParsed_raises (fun e => library_exn e \/ (kind = P_file /\ n <> 0%nat /\ (e = PyIndexError \/ e = PyTypeError)))
    w sch doc (parse_inc w kind doc n) ks key c idx c' e Po) as [A|[[A|A]|A]]; auto.
  - apply inc_texts.
  - intros x X. destruct (parse_inc w kind doc n) as [chunks o] eqn:Ep. cbn [snd] in X. subst o.
    destruct (inc_exceptions _ _ _ _ _ _ Ep) as [D|[(-> & s & T & S)|D]]; [left; now apply dep_library| |now right].
    destruct (He s T) as [b B]. congruence.
Qed.

(** ** The program *)
Lemma set_texts (d : list (str * json)) k v k' x : In (k', x) (dict_set d k v) -> In (k', x) d \/ (k', x) = (k, v).
Proof.
  induction d as [|[k1 v1] d IH]; cbn [dict_set].
  - intros [H|[]]. now right.
  - destruct (str_eqb k1 k) eqn:E.
    + apply str_eqb_eq in E. subst. intros [H|H]; [now right|left; now right].
    + intros [H|H]; [left; now left|]. destruct (IH H) as [H'|H']; [left; now right|now right].
Qed.
Lemma collapse_texts l : forall acc k x, In (k, x) (fold_left (fun (acc : list (str * json)) kv => dict_set acc (fst kv) (snd kv)) l acc) -> In (k, x) acc \/ In (k, x) l.
Proof.
  induction l as [|[k0 v0] l IH]; intros acc k x H; cbn [fold_left] in H; [now left|].
  destruct (IH _ _ _ H) as [H'|H']; [|right; now right]. apply set_texts in H' as [H'|H']; [now left|]. right. left. now symmetry.
Qed.
Lemma load_text_in j s : text_in (load j) s -> text_in j s.
Proof.
  induction j as [|b|z|f|t|l IH|d IH] using json_nested; intros H; try exact H.
  - cbn [load] in H. inversion H as [|? x ? I T|]; subst. apply in_map_iff in I as (y & <- & I).
    apply (text_list _ y); [exact I|]. exact (proj1 (Forall_forall _ _) IH y I T).
  - cbn [load] in H. inversion H as [| |? k x ? I T]; subst. apply collapse_texts in I as [[]|I].
    apply in_map_iff in I as ([k' y] & E & I). cbn [fst snd] in E. injection E as -> <-.
    apply (text_dict _ k y); [exact I|]. exact (proj1 (Forall_forall _ _) IH (k, y) I T).
Qed.

Theorem short_sums w doc e : short_amounts w doc -> ~ amounts_fail w doc e.
Proof.
  intros Sh (s & r & T & R & C). destruct (reads_printed _ _ _ R) as [zs Pz]. rewrite (reads_cents _ _ _ zs R Pz) in C; [discriminate|].
  specialize (Sh s r T R). cbv zeta in Sh. unfold printed_amounts in Pz. cbv zeta in Pz. clear - Pz Sh.
  induction Pz as [|a z l zs A F IH]; [constructor|]. inversion Sh as [|? ? L Sh']; subst. constructor; [exact (short_moderate _ _ _ A L)|exact (IH Sh')].
Qed.

Theorem verify_mode_raises w pick a doc ks key c idx ids c' e : receipts_are_texts (load doc) -> texts_encode doc -> state_encodes c ->
  c_used c = Unique ids -> (key = None \/ short_amounts w doc) ->
  verify_mode w pick a doc ks key c idx = (c', Some e) ->
  library_exn e \/ (va_chunksize a <> 0%nat /\ (e = PyIndexError \/ e = PyTypeError)).
Proof.
  intros Ht He Hs Hu Sh H.
  assert (texts_encode (load doc)) as He' by (intros s T; apply He; now apply load_text_in).
  assert (~ (key <> None /\ amounts_fail w doc e) /\ ~ (key <> None /\ amounts_fail w (load doc) e)) as [S1 S2].
  { destruct Sh as [->|Sh]; [split; now intros [K _]|]. split; intros [_ A]; [exact (short_sums _ _ _ Sh A)|].
    apply (short_sums w doc e Sh). destruct A as (s & r & T & R & C). exists s, r. split; [now apply load_text_in|auto]. }
  assert (~ exists x y, c_used c = Natural x y) as NN by (intros (x & y & E); congruence).
  unfold verify_mode in H. destruct (1 <? va_par a)%nat eqn:P; [|destruct (va_chunksize a =? 0)%nat eqn:C].
  - apply Nat.ltb_lt in P. assert (Some (va_par a) <> Some 0%nat) as Po by (intros E; injection E; lia).
    destruct (va_chunksize a =? 0)%nat eqn:C.
    + apply verifyParsedDEP_raises in H; try assumption. tauto.
    + apply Nat.eqb_neq in C. apply verify_file_raises in H; try assumption. tauto.
  - apply verifyDEP_raises in H; try assumption. tauto.
  - apply Nat.eqb_neq in C. apply verify_file_raises in H; try assumption; [tauto|discriminate].
Qed.
