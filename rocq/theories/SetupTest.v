(** Tests with such devices pass. *)
From Coq Require Import Lia ZifyClasses ZifyN ZifyNat ZifyBool Floats.SpecFloat.
From Verif Require Import PyBase ListFacts World Codec PyFloat PyTime Receipt Pem Json KeyStore VerifyReceipt State DepParser Verify DepExport
  SpecReceipt SpecDep SpecCluster SpecAmount SpecKeys SpecPool SpecState CashReg SpecCashReg
  Override RunTest SpecRunTest RunTestSeq TestVerify TestVerifyFacts TestSetup SpecSetup SetupFacts.
Open Scope N_scope.

Lemma request_wants d i : wants d i (instr_request d i).
Proof.
  unfold wants, instr_request. cbn [q_id q_time q_a q_b q_c q_d q_e q_sys q_dummy q_reversal]. do 7 (split; [reflexivity|]).
  destruct (in_damaged i); cbn [sys_zda sys_serial]; (split; [reflexivity|]); (split; [reflexivity|]).
  - split; [intros _ (z & n & p & E); discriminate E|]. split; [discriminate|]. now split.
  - split; [discriminate|]. split; [reflexivity|]. now split.
Qed.

Section Rules.
Variables (w : world) (closed : bool) (size : nat) (b : backend) (ks : keystore) (multi : bool) (devs : list device) (l : list instr).
Hypothesis IO : instructions_ok w closed (List.length devs) size b l.
Hypothesis FIT : Forall (device_fit w ks multi) devs.
Hypothesis ZDA : Forall (fun d => dv_zda d = lit "AT0" <-> closed = true) devs.
Let stub : device := Device (if closed then lit "AT0" else lit "AT1") [] [] None [].
Let dev (i : instr) : device := nth (in_dev i) devs stub.
Let real (i : instr) : request * verifier := (instr_request (dev i) i, verifier_of ks (device_certificate multi (dev i))).

Lemma dev_In i : In i l -> In (dev i) devs /\ nth_error devs (in_dev i) = Some (dev i).
Proof.
  intros H. destruct IO as (F & _). rewrite Forall_forall in F. destruct (F i H) as [L _].
  split; [now apply nth_In|]. now apply nth_error_nth'.
Qed.
Lemma works_same i : works (bare_request closed i) <-> works (fst (real i)).
Proof.
  unfold works, bare_request, real, instr_request. cbn [fst q_sys]. destruct (in_damaged i); split; intros (z & n & p & E); try discriminate E;
    eexists _, _, _; reflexivity.
Qed.
Lemma closed_bare i : request_closed (bare_request closed i) <-> closed = true.
Proof. unfold request_closed, bare_request, instr_request. cbn [q_sys]. destruct closed, (in_damaged i); cbn [sys_zda dv_zda]; split; congruence || discriminate. Qed.
Lemma closed_real i : In i l -> (request_closed (fst (real i)) <-> closed = true).
Proof.
  intros H. destruct (dev_In i H) as [D _]. rewrite Forall_forall in ZDA. specialize (ZDA _ D). unfold request_closed, real, instr_request. cbn [fst q_sys].
  destruct (in_damaged i); cbn [sys_zda]; exact ZDA.
Qed.
Lemma plain_same i : plain_zero_request (bare_request closed i) -> plain_zero_request (fst (real i)).
Proof. intros (W & Z & S). split; [now apply works_same|]. split; [exact Z|exact S]. Qed.
Lemma turnover_same L z : requests_turnover (map fst (map real L)) z <-> requests_turnover (map (bare_request closed) L) z.
Proof.
  assert (forall cs, Forall2 (fun q c => (q_dummy q = true /\ c = 0%Z) \/ (q_dummy q = false /\ request_total q c)) (map fst (map real L)) cs
    <-> Forall2 (fun q c => (q_dummy q = true /\ c = 0%Z) \/ (q_dummy q = false /\ request_total q c)) (map (bare_request closed) L) cs) as H.
  { induction L as [|i L IH]; intros cs; cbn [map]; [reflexivity|]. split; intros H; inversion H as [|? c ? cs' H1 H2]; subst; (constructor; [exact H1|]); now apply IH. }
  unfold requests_turnover. split; intros (cs & F & E); exists cs; (split; [now apply H|exact E]).
Qed.

Lemma tagged_map {A} (f : instr -> A) os (m : list instr) : combine os (map f m) = map (fun x : nat * instr => (fst x, f (snd x))) (combine os m).
Proof. revert os. induction m as [|i m IH]; intros [|o os]; cbn [combine map]; [reflexivity..|]. now rewrite IH. Qed.
Lemma register_map {A} (f : instr -> A) r t : of_register r (map (fun x : nat * instr => (fst x, f (snd x))) t) = map f (of_register r t).
Proof. unfold of_register. induction t as [|[o i] t IH]; cbn [map filter fst snd]; [reflexivity|]. destruct (o =? r)%nat; cbn [map snd]; now rewrite IH. Qed.
Lemma register_In r os i : In i (of_register r (combine os l)) -> In i l.
Proof. unfold of_register. intros H. apply in_map_iff in H as ((o & j) & <- & H). apply filter_In in H as [H _]. exact (in_combine_r _ _ _ _ H). Qed.

Lemma rules_of_instructions : test_rules w ks size b multi devs l (map real l) /\ newest_in_use l (owners 1 0 l).
Proof.
  destruct IO as (Dv & Bo & Fi & Co & Ne & St & Da & Ou & Tu & Cl & Id & To). set (os := owners 1 0 l) in *. split; [|exact Ne].
  rewrite tagged_map in St, Da, Ou, Tu, Cl, To.
  assert (forall r, of_register r (combine os (map real l)) = map real (of_register r (combine os l))) as Er by (intros r; now rewrite tagged_map, register_map).
  unfold test_rules. fold os. split; [|split; [exact Fi|split; [exact Co|split; [|split; [|split; [|split]]]]]].
  - assert (forall m, incl m l -> Forall2 (asked ks multi devs) m (map real m)) as H; [|apply H, incl_refl].
    induction m as [|i m IH]; intros I; cbn [map]; constructor; [|apply IH; intros x Hx; apply I; now right].
    destruct (dev_In i (I i (or_introl eq_refl))) as [_ E]. exists (dev i). split; [exact E|]. split; [|reflexivity].
    rewrite Forall_forall in Dv. split; [|apply Dv, I; now left]. apply request_wants.
  - intros r. rewrite Er. set (L := of_register r (combine os l)). assert (forall i, In i L -> In i l) as Sub by (intros i; apply register_In).
    unfold register_orderly. split; [|split; [|split; [|split]]].
    + apply Forall_map, Forall_forall. intros i Hi. apply Sub in Hi. rewrite Forall_map, Forall_forall in Bo. destruct (Bo i Hi) as (B1 & B2 & B3 & B4).
      destruct (dev_In i Hi) as [Hd _]. rewrite Forall_forall in FIT. destruct (FIT _ Hd) as [Fd _].
      assert (device_ok w (q_sys (instr_request (dev i) i)) /\ device_known w (verifier_of ks (device_certificate multi (dev i))) (q_sys (instr_request (dev i) i))) as [D1 D2].
      { apply Fd. unfold instr_request. cbn [q_sys]. destruct (in_damaged i); [now left|now right]. }
      unfold request_ok, real. cbn [fst snd]. split; [exact B1|]. split; [exact B2|]. split; [exact B3|]. split; [exact B4|]. now split.
    + intros q rest E. destruct L as [|i L'] eqn:EL; [discriminate E|]. cbn [map] in E. injection E as <- _. apply plain_same.
      apply (St r _ (map (bare_request closed) L')). rewrite register_map. fold L. now rewrite EL.
    + intros l1 p q l2 E. apply map_eq_app in E as (m1 & m2 & E1 & <- & E2). apply map_eq_cons in E2 as (x & m3 & -> & <- & E2). apply map_eq_cons in E2 as (y & m4 & -> & <- & <-).
      apply map_eq_app in E1 as (L1 & L2 & E1 & <- & E2). symmetry in E2. apply eq_sym in E2. apply map_eq_cons in E2 as (i & L3 & -> & <- & E2). apply map_eq_cons in E2 as (j & L4 & -> & <- & <-).
      assert (In i l) as Hi by (apply Sub; rewrite E1; apply in_or_app; right; now left).
      assert (In j l) as Hj by (apply Sub; rewrite E1; apply in_or_app; right; right; now left).
      split; [rewrite closed_real, closed_real by assumption; reflexivity|].
      apply (Da r (map (bare_request closed) L1) (bare_request closed i) (bare_request closed j) (map (bare_request closed) L4)).
      rewrite register_map. fold L. rewrite E1, map_app. reflexivity.
    + intros l1 o p q l2 E. rewrite map_map in E. apply map_eq_app in E as (L1 & L2 & E1 & <- & E2). apply map_eq_cons in E2 as (h & L3 & -> & <- & E2).
      apply map_eq_cons in E2 as (i & L4 & -> & <- & E2). apply map_eq_cons in E2 as (j & L5 & -> & <- & <-).
      rewrite <- !works_same. intros W1 W2 NZ. apply plain_same.
      apply (Ou r (map (bare_request closed) L1) (bare_request closed h) (bare_request closed i) (bare_request closed j) (map (bare_request closed) L5)); [|exact W1|exact W2|exact NZ].
      rewrite register_map. fold L. rewrite E1, map_app. reflexivity.
    + intros l1 q l2 z E S T. rewrite map_map in E. apply map_eq_app in E as (L1 & L2 & E1 & <- & E2). apply map_eq_cons in E2 as (i & L3 & -> & <- & <-).
      apply (Tu r (map (bare_request closed) L1) (bare_request closed i) (map (bare_request closed) L3)); [|exact S|].
      * rewrite register_map. fold L. rewrite E1, map_app. reflexivity.
      * change [bare_request closed i] with (map (bare_request closed) [i]). rewrite <- map_app. apply turnover_same. rewrite map_app, map_app, map_map. exact T.
  - intros r p q l1 l2 E1 E2. rewrite Er in E1, E2. apply map_eq_cons in E1 as (i & L1 & E1 & <- & <-). apply map_eq_cons in E2 as (j & L2 & E2 & <- & <-).
    assert (In i l) as Hi by (apply (register_In r os); rewrite E1; now left). assert (In j l) as Hj by (apply (register_In (S r) os); rewrite E2; now left).
    destruct (Cl r (bare_request closed i) (bare_request closed j) (map (bare_request closed) L1) (map (bare_request closed) L2)) as [Ec T];
      [rewrite register_map, E1; reflexivity|rewrite register_map, E2; reflexivity|].
    rewrite !closed_real by assumption. split; [exact Ec|]. split; [exact Ec|exact T].
  - rewrite map_map in Id |- *. exact Id.
  - intros Em i d Hi Hd. destruct (dev_In i Hi) as [HIn E]. rewrite E in Hd. apply Some_inj in Hd. subst d.
    rewrite Forall_forall in FIT. exact (proj2 (FIT _ HIn) Em).
  - intros l1 i l2 t1 o qv t2 x El En Ex Nz Et Ln. rewrite tagged_map in Et. apply map_eq_app in Et as (u1 & u2 & Eu & <- & E2).
    apply map_eq_cons in E2 as ((o' & j) & u3 & -> & E2 & <-). cbn [fst snd] in E2. injection E2 as <- <-. rewrite map_length in Ln.
    destruct (To l1 i l2 (map (fun x : nat * instr => (fst x, bare_request closed (snd x))) u1) o' (bare_request closed j) (map (fun x : nat * instr => (fst x, bare_request closed (snd x))) u3) x El En Ex Nz) as (z & M & T).
    + rewrite Eu, map_app. reflexivity.
    + now rewrite map_length.
    + exists z. split; [exact M|].
      change [(o', real j)] with (map (fun x : nat * instr => (fst x, real (snd x))) [(o', j)]). rewrite <- map_app, register_map. apply turnover_same. rewrite <- register_map, map_app. exact T.
Qed.
Lemma rules_exist : exists qs, test_rules w ks size b multi devs l qs /\ newest_in_use l (owners 1 0 l).
Proof. eexists. apply rules_of_instructions. Qed.
End Rules.

(** ** Tests *)
Lemma full_spec w m say sch random x b sp pub priv closed key devs ks :
  (0 <= ts_number sp)%Z -> loadB64Key (ts_aes sp) = Ok key ->
  make_devices w m sp closed 0 (repeat (pub, priv) (Z.to_nat (ts_number sp))) [] = Ok (devs, ks) ->
  (forall o, readStoreFromJson w (writeStoreToJson w ks o) = Ok ks) ->
  testVerify_full w m say sch random x b sp pub priv closed
  = test_spec w say sch random x ks (ts_id sp) key (counter_size sp None) (ts_multi sp) devs b (ts_instrs sp).
Proof.
  intros P K D S. unfold testVerify_full, runTest_full, test_spec. rewrite repeat_length. replace (Z.of_nat (Z.to_nat (ts_number sp)) =? ts_number sp)%Z with true by lia.
  rewrite K. cbn [bind]. destruct (new_cashreg (ts_id sp) None 0 key (counter_size sp None)) as [g|e] eqn:G; cbn [bind].
  2:{ unfold runTest. rewrite G. reflexivity. }
  rewrite D. cbn [bind fst snd].
  destruct (runTest _ _ _ _ _ _ _) as [deps|e]; [|reflexivity]. cbn [bind]. unfold test_both, verify_made. rewrite K, S. reflexivity.
Qed.

Theorem test_passes w own m say sch random x b sp pub priv closed key :
  hash_ok w -> aes_ok w -> pem_ok w -> cert_keys_ok w -> maker_ok w own m ->
  setup_ok w own m sp closed (repeat (pub, priv) (Z.to_nat (ts_number sp))) -> (0 <= ts_number sp)%Z ->
  loadB64Key (ts_aes sp) = Ok key -> List.length key = 32%nat -> identifier (ts_id sp) -> (5 <= counter_size sp None <= 16)%nat ->
  instructions_ok w closed (Z.to_nat (ts_number sp)) (counter_size sp None) b (ts_instrs sp) ->
  (forall i, isolated (sch i)) -> ex_type x = None ->
  testVerify_full w m say sch random x b sp pub priv closed = Ok (R_OK, None).
Proof.
  intros Hh Ha Hp Hk Hm So P K Lk Id Sz Io Is Et.
  destruct (setup_works w own m sp closed _ Hm Hp Hk So ltac:(rewrite repeat_length; lia)) as (devs & ks & D & L & F & Z & S).
  rewrite (full_spec w m say sch random x b sp pub priv closed key devs ks P K D S). rewrite repeat_length in L.
  destruct (rules_of_instructions w closed (counter_size sp None) b ks (ts_multi sp) devs (ts_instrs sp)) as [R Ne]; [now rewrite L|exact F|exact Z|].
  eapply rules_pass; eauto.
Qed.
