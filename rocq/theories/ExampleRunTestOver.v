(** Tests with a faulty last receipt in the toy world. *)
From Coq Require Import Floats.SpecFloat Lia.
From Verif Require Import PyBase World Codec PyFloat PyTime Algo Receipt SpecReceipt SpecKeys Json ListFacts Pem KeyStore VerifyReceipt State DepParser Verify DepExport
  SpecDep SpecCluster SpecAmount SpecState CashReg SpecCashReg CashRegFacts Override SpecOverride RunTest SpecRunTest RunTestFacts RunTestSeq TestVerify SpecTestVerify TestVerifyFacts RunTestOver
  ExampleWorld ExampleDep ExampleCashReg ExampleRunTest ExampleTestVerify.
Open Scope N_scope.

(** Two receipts of different devices, and a third one to be overridden *)
Definition ex_before : list instr :=
  [ex_in (lit "1") 0 0 0 false NO_NEW_DEP None None; ex_in (lit "2") 1 1250 1 false NO_NEW_DEP None None].
Definition ex_third : instr := ex_in (lit "3") 2 300 0 false NO_NEW_DEP None None.
Definition ex_over (o : override) : instr :=
  Instr (in_id ex_third) (in_time ex_third) (in_a ex_third) (in_b ex_third) (in_c ex_third) (in_d ex_third) (in_e ex_third)
    (in_dev ex_third) false NO_NEW_DEP None None false false o.
Definition ex_third_q : request := instr_request ex_devA ex_third.
Definition ex_third_v : verifier := verifier_of ex_ks (Some ex_cert).

Definition ex_faulty : list (override * exn) :=
  [(only_id (lit "1"), DuplicateReceiptId (lit "1"));
   (only_register (lit "REG-2"), ChangingRegisterId (lit "3"));
   (only_time (strftime (Dt 2017 1 31 10 0 0)), DecreasingDate (lit "3"));
   (only_chain (b64encode (repeat 0 8)), ChainingError (lit "3"));
   (only_counter 7, InvalidTurnoverCounter (lit "3"));
   (only_sum (fmt_sum (float_of_cents false 750)), InvalidTurnoverCounter (lit "3"))].

Definition ex_third_g := Eval vm_compute in fst (issue_all toy_world ex_g0 (map fst (ex_asked ex_before))).
Definition ex_third_recs := Eval vm_compute in match snd (issue_all toy_world ex_g0 (map fst (ex_asked ex_before))) with Ok l => l | Err _ => [] end.
Lemma ex_third_issued : issue_all toy_world ex_g0 (map fst (ex_asked ex_before)) = (ex_third_g, Ok ex_third_recs).
Proof. vm_compute. reflexivity. Qed.

Lemma ex_third_wanted o : wanted ex_ks true ex_devs (ex_over o) (ex_third_q, ex_third_v).
Proof.
  exists ex_devA. split; [reflexivity|]. split; [|reflexivity]. unfold wants.
  repeat (split; [reflexivity|]). split; [intros X; discriminate X|]. split; [reflexivity|]. split; reflexivity.
Qed.

Local Ltac cases E l := cbn [app] in E;
  repeat (destruct l as [|? l]; cbn [app] in E;
    [first [discriminate E | injection E; clear E; intros; subst]|first [discriminate E | injection E as <- E]]).
Lemma ex_third_orderly : orderly toy_world 8 B_unique (ex_asked ex_before ++ [(ex_third_q, ex_third_v)]).
Proof.
  change (ex_asked ex_before ++ [(ex_third_q, ex_third_v)]) with (map ex_qv (ex_before ++ [ex_third])).
  unfold orderly, ex_before, ex_third, ex_qv. cbn [map fst snd app].
  split; [repeat (constructor; [apply ex_in_ok; [now apply ex_identifier|lia|lia]|]); constructor|].
  split; [intros ? ? E; injection E as <- _; apply ex_in_plain|].
  split; [intros l ? ? ? E; cases E l; (split; [split; intros _; reflexivity|reflexivity])|].
  split; [intros l ? ? ? ? E W1 W2 _; cases E l; exfalso; apply W1; do 3 eexists; reflexivity|].
  split; [intros l ? ? ? E _ T; apply turnover_calc in T; subst; cases E l; vm_compute; (split; [discriminate|reflexivity])|].
  cbn [ids_new map]. repeat (constructor; [cbn; intros H; repeat destruct H as [H|H]; try discriminate H; exact H|]). constructor.
Qed.

Lemma ex_third_injected r : Forall (fun oe => injected toy_world B_unique (Some ex_key) ex_third_g (map fst (ex_asked ex_before)) ex_third_q ex_third_v r (fst oe) (snd oe)) ex_faulty.
Proof.
  change (map fst (ex_asked ex_before)) with ([instr_request ex_devA (ex_in (lit "1") 0 0 0 false NO_NEW_DEP None None)] ++ [instr_request ex_devB (ex_in (lit "2") 1 1250 1 false NO_NEW_DEP None None)]).
  assert (request_total ex_third_q 300) as T by (apply (ex_in_total ex_devA (lit "3") 2 300 0 false NO_NEW_DEP None None); discriminate).
  assert (standard_request ex_third_q) as S by (split; reflexivity).
  unfold ex_faulty. repeat (apply Forall_cons; [cbn [fst snd]|]). 7: apply Forall_nil.
  - apply j_id; [reflexivity|now apply ex_identifier|]. cbn. now left.
  - change (lit "3") with (q_id ex_third_q). apply j_register; [discriminate| |vm_compute; discriminate].
    split; [discriminate|]. split; [intros H; repeat (destruct H as [H|H]; [discriminate H|]); exact H|]. exists (lit "REG-2"). reflexivity.
  - change (lit "3") with (q_id ex_third_q). eapply j_time; [reflexivity| |cbn; lia|].
    + unfold valid_dt. cbn [dt_year dt_month dt_day dt_hour dt_min dt_sec]. split; [lia|]. split; [lia|].
      split; [exists 31; unfold days_in_month; split; [cbn; intuition lia|lia]|]. lia.
    + vm_compute. intuition discriminate.
  - change (lit "3") with (q_id ex_third_q). apply j_chain; [discriminate|reflexivity|vm_compute; repeat constructor| |].
    + intros (cb & E & H). vm_compute in E. apply Ok_inj in E. subst cb. vm_compute in H. discriminate H.
    + intros [H|[H|[]]]; discriminate H.
  - change (lit "3") with (q_id ex_third_q). apply (j_counter _ _ _ _ _ _ _ _ 7 300); [discriminate|exact S|exact T| |vm_compute; discriminate].
    vm_compute. split; [discriminate|reflexivity].
  - change (lit "3") with (q_id ex_third_q). apply (j_sum _ _ _ _ _ _ _ _ _ 300 750); [discriminate|exact S| | |exact T| |discriminate].
    + intros H. apply Forall_inv in H. destruct H as [? H]. discriminate H.
    + intros [? H]. discriminate H.
    + apply (ex_in_total ex_devA (lit "3") 2 750 0 false NO_NEW_DEP None None). discriminate.
Qed.

(** The text of the third receipt *)
Definition ex_third_text (o : override) : option str :=
  match issue_over toy_world ex_third_g (lit "R1") o ex_third_q with
  | (_, Ok r) => match toJWSString r (lit "R1") with Ok t => Some t | Err _ => None end
  | (_, Err _) => None
  end.
Lemma ex_third_texts : Forall (fun oe => exists t, ex_third_text (fst oe) = Some t) ex_faulty.
Proof. repeat constructor; (eexists; vm_compute; reflexivity). Qed.

Lemma ex_faulty_case : Forall (fun oe => forall say sch random x, (forall n, isolated (sch n)) ->
  (exists dep, runTest toy_world (lit "REG-1") ex_key 8 true ex_devs (ex_before ++ [ex_over (fst oe)]) = Ok [dep]
    /\ testVerify toy_world ex_ks ex_key B_unique [dep] = T_raised (snd oe)
    /\ parse_deps toy_world sch random ex_ks (Some ex_key) (new_cluster B_unique) [] 0 [dep] = T_raised (snd oe))
  /\ (test_spec toy_world say sch random x ex_ks (lit "REG-1") ex_key 8 true ex_devs B_unique (ex_before ++ [ex_over (fst oe)]) = Ok (R_OK, None)
      <-> expects say x (Some (snd oe)))) ex_faulty.
Proof.
  apply Forall_forall. intros [o e] I say sch random x Iso. cbn [fst snd].
  pose proof ex_third_texts as Tx. rewrite Forall_forall in Tx. destruct (Tx _ I) as (t & Et). cbn [fst] in Et. unfold ex_third_text in Et.
  destruct (issue_over toy_world ex_third_g (lit "R1") o ex_third_q) as [g' [r|]] eqn:Eo; [|discriminate Et].
  destruct (toJWSString r (lit "R1")) as [t'|] eqn:Ej; [|discriminate Et]. clear Et.
  pose proof (ex_third_injected r) as J. rewrite Forall_forall in J. specialize (J _ I). cbn [fst snd] in J.
  assert (Forall (fun j => in_new j = NO_NEW_DEP) (ex_before ++ [ex_over o])) as Nn by (repeat constructor).
  assert (Forall2 (asked ex_ks true ex_devs) ex_before (ex_asked ex_before)) as As by (apply ex_asked_ok; repeat constructor).
  split.
  - eapply (faulty_outcomes toy_world sch random ex_ks B_unique (lit "REG-1") ex_key 8 true ex_devs ex_before (ex_asked ex_before) (ex_over o) ex_third_q ex_third_v
      ex_g0 ex_third_g ex_third_recs g' r t' e toy_hash_ok toy_aes_ok toy_pem_ok Iso ex_name eq_refl eq_refl Nn As (ex_third_wanted o) ex_third_orderly (ex_devs_trusted _) ex_third_issued Eo Ej J).
  - eapply (faulty_test toy_world say sch random x ex_ks B_unique (lit "REG-1") ex_key 8 true ex_devs ex_before (ex_asked ex_before) (ex_over o) ex_third_q ex_third_v
      ex_g0 ex_third_g ex_third_recs g' r t' e toy_hash_ok toy_aes_ok toy_pem_ok Iso ex_name eq_refl eq_refl Nn As (ex_third_wanted o) ex_third_orderly (ex_devs_trusted _) ex_third_issued Eo Ej J).
Qed.

(** The test passes if it expects the fault, or a class of faults, at the right
    receipt. *)
Lemma ex_faulty_expected : expects ex_say (ex_expect (Some (lit "InvalidTurnoverCounterException")) (Some (lit "3"))) (Some (InvalidTurnoverCounter (lit "3")))
  /\ ~ expects ex_say (ex_expect (Some (lit "InvalidTurnoverCounterException")) (Some (lit "2"))) (Some (InvalidTurnoverCounter (lit "3")))
  /\ ~ expects ex_say (ex_expect (Some (lit "ChainingException")) None) (Some (InvalidTurnoverCounter (lit "3")))
  /\ ~ expects ex_say (ex_expect None None) (Some (InvalidTurnoverCounter (lit "3"))).
Proof.
  split; [|split; [|split]].
  - split; [exists (lit "InvalidTurnoverCounterException"); split; [reflexivity|constructor]|]. split; [intros r E _; injection E as <-; reflexivity|]. split; intros; discriminate.
  - intros (_ & H & _). specialize (H (lit "2") eq_refl ltac:(discriminate)). discriminate H.
  - intros ((t & E & D) & _). injection E as <-. apply classes_spec in D; [|discriminate]. vm_compute in D. intuition discriminate.
  - intros ((t & E & D) & _). discriminate E.
Qed.
