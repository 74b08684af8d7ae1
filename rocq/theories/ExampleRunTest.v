(** Test specifications in the toy world. *)
From Coq Require Import Floats.SpecFloat Lia.
From Verif Require Import PyBase World Codec PyFloat PyTime Algo Receipt SpecReceipt SpecKeys Json ListFacts Pem KeyStore VerifyReceipt State DepParser Verify DepExport
  SpecDep SpecCluster SpecAmount CashReg SpecCashReg CashRegFacts Override RunTest SpecRunTest RunTestFacts RunTestSeq ExampleWorld ExampleDep ExampleCashReg.
Open Scope N_scope.

(** Two devices of a closed system. The certificate of the second one is signed with
    the key of the first one. *)
Definition ex_cert2 : cert := [91; 8; 7].
Definition ex_devA : device := Device (lit "AT0") (lit "U:ATU12345678-K0") [7] (Some ex_cert) [].
Definition ex_devB : device := Device (lit "AT0") (lit "U:ATU12345678-K1") [8] (Some ex_cert2) [ex_cert].
Definition ex_devs : list device := [ex_devA; ex_devB].

Definition ex_in (id : str) (sec : N) (c : N) (dev : nat) (damaged : bool) (new : new_dep) (cont : option nat) (t : option float) : instr :=
  Instr id (Dt 2017 1 31 10 0 sec) (float_of_cents false c) (S754_zero false) (S754_zero false) (S754_zero false) (S754_zero false)
    dev damaged new cont t false false no_override.

(** Three registers, two of which are continued *)
Definition ex_test : list instr :=
  [ex_in (lit "1") 0 0 0 false NO_NEW_DEP None None;
   ex_in (lit "2") 1 1250 1 false NO_NEW_DEP None (Some (float_of_cents false 1250));
   ex_in (lit "3") 1 0 0 false NEW_CLUSTER_DEP None None;
   ex_in (lit "4") 2 500 0 true NO_NEW_DEP None None;
   ex_in (lit "5") 3 100 1 false NEW_DEP (Some 0%nat) (Some (float_of_cents false 1350));
   ex_in (lit "6") 4 0 0 false NEW_DEP (Some 1%nat) None;
   ex_in (lit "7") 5 0 1 false NEW_CLUSTER_DEP None None].
(** A register is added while an older one is in use. *)
Definition ex_test2 : list instr :=
  [ex_in (lit "1") 0 0 0 false NO_NEW_DEP None None;
   ex_in (lit "2") 1 0 0 false NEW_CLUSTER_DEP None None;
   ex_in (lit "3") 2 0 0 false NEW_DEP (Some 0%nat) None;
   ex_in (lit "4") 3 0 0 false NEW_CLUSTER_DEP None None;
   ex_in (lit "5") 4 0 0 false NEW_DEP (Some 1%nat) None].

Definition ex_dev (i : instr) : device := match in_dev i with O => ex_devA | _ => ex_devB end.
Definition ex_asked (l : list instr) : list (request * verifier) :=
  map (fun i => (instr_request (ex_dev i) i, verifier_of ex_ks (dv_cert (ex_dev i)))) l.


Lemma ex_trusted2 : trusted toy_world ex_ks ex_cert [] /\ trusted toy_world ex_ks ex_cert2 [ex_cert].
Proof.
  split.
  - exists [], ex_cert, []. split; [reflexivity|]. split; [exists ex_cert; split; reflexivity|].
    split; [|intros y k []]. intros [|? [|? ?]] a b l2 E; discriminate E.
  - exists [ex_cert2], ex_cert, []. split; [reflexivity|]. split; [exists ex_cert; split; reflexivity|].
    split.
    + intros [|? [|? [|? ?]]] a b l2 E; try discriminate E. injection E as <- <- _. reflexivity.
    + intros y k [<-|[]] X. vm_compute in X. discriminate X.
Qed.
Lemma ex_loads c : c = ex_cert \/ c = ex_cert2 -> exists t, loadCert toy_world t = Ok c.
Proof. intros [->| ->]; [exists (addPEMCertHeaders (b64encode ex_cert))|exists (addPEMCertHeaders (b64encode ex_cert2))]; vm_compute; reflexivity. Qed.

Lemma ex_dev_cases i : ex_dev i = ex_devA \/ ex_dev i = ex_devB.
Proof. unfold ex_dev. destruct (in_dev i); auto. Qed.
Lemma ex_dev_system d i : d = ex_devA \/ d = ex_devB ->
  device_ok toy_world (q_sys (instr_request d i)) /\ device_known toy_world (verifier_of ex_ks (dv_cert d)) (q_sys (instr_request d i)).
Proof.
  intros D. unfold instr_request. cbn [q_sys].
  set (s := if in_damaged i then _ else _).
  assert (sys_zda s = lit "AT0" /\ sys_serial s = dv_serial d) as [Ez Es] by (unfold s; destruct D as [->| ->], (in_damaged i); split; reflexivity).
  split.
  - unfold device_ok. rewrite Ez, Es. split; [|split; [|split; [|split]]].
    + exists (lit "AT0"), (@nil N). split; [reflexivity|]. split; [now left|]. now left.
    + exists (lit "AT0"). reflexivity.
    + left. split; [reflexivity|].
      exists (lit "U:ATU12345678"). split; [right; left; exists (lit "ATU12345678"); repeat split; vm_compute; (reflexivity || lia)|].
      split; [vm_compute; intuition discriminate|]. right. right. destruct D as [->| ->]; [exists (lit "K0")|exists (lit "K1")]; split; reflexivity.
    + destruct D as [->| ->]; vm_compute; intuition discriminate.
    + destruct D as [->| ->]; apply encodes_ascii; repeat constructor.
  - unfold device_known. rewrite Ez. split; [intros; now left|]. intros z n priv E. exists priv. split; [apply toy_key_pair|].
    unfold s in E. destruct D as [->| ->], (in_damaged i); try discriminate E; injection E as _ _ <-; reflexivity.
Qed.
Lemma ex_in_total d id sec c dev dam new cont t : (Z.of_N c <= 10 ^ 14)%Z ->
  request_total (instr_request d (ex_in id sec c dev dam new cont t)) (Z.of_N c).
Proof.
  intros L. exists [Z.of_N c; 0%Z; 0%Z; 0%Z; 0%Z]. split.
  - cbn [instr_request ex_in q_a q_b q_c q_d q_e in_a in_b in_c in_d in_e].
    constructor; [now apply money_cents|]. repeat (constructor; [apply (money_cents false 0 0 eq_refl); discriminate|]). constructor.
  - unfold total. cbn [fold_right]. lia.
Qed.
Lemma ex_in_ok id sec c dev dam new cont t : identifier id -> sec < 60 -> (Z.of_N c <= 10 ^ 14)%Z ->
  let i := ex_in id sec c dev dam new cont t in
  request_ok toy_world (verifier_of ex_ks (dv_cert (ex_dev i))) (instr_request (ex_dev i) i).
Proof.
  intros I S L i. split; [exact I|]. split.
  { unfold i, instr_request, ex_in, valid_dt. cbn [q_time in_time dt_year dt_month dt_day dt_hour dt_min dt_sec]. split; [lia|]. split; [lia|].
    split; [exists 31; unfold days_in_month; split; [cbn; intuition lia|lia]|]. lia. }
  split; [cbn; lia|]. split; [eexists; now apply ex_in_total|]. apply ex_dev_system, ex_dev_cases.
Qed.
Lemma ex_in_plain id sec dev new cont t :
  let i := ex_in id sec 0 dev false new cont t in plain_zero_request (instr_request (ex_dev i) i).
Proof.
  split; [do 3 eexists; reflexivity|]. split; [|split; reflexivity].
  unfold zero_request, is_zero. repeat (constructor; [eexists; reflexivity|]). constructor.
Qed.
Lemma ex_asked_ok l : Forall (fun i => (in_dev i < 2)%nat /\ in_over i = no_override) l -> Forall2 (asked ex_ks true ex_devs) l (ex_asked l).
Proof.
  intros F. unfold ex_asked. induction F as [|i l [H No] F IH]; constructor; [|exact IH].
  exists (ex_dev i). split; [unfold ex_dev, ex_devs; destruct (in_dev i) as [|[|k]]; [reflexivity|reflexivity|lia]|].
  cbn [fst snd]. split; [|reflexivity]. unfold asks, wants, instr_request. split; [|exact No].
  cbn [q_id q_time q_a q_b q_c q_d q_e q_sys q_dummy q_reversal].
  repeat (split; [reflexivity|]). split; [now destruct (in_damaged i)|]. split; [now destruct (in_damaged i)|].
  split; [intros -> (z & n & p & E); discriminate E|]. split; [intros ->; reflexivity|]. split; reflexivity.
Qed.
Lemma ex_devs_trusted l : devices_trusted toy_world ex_ks true ex_devs l.
Proof.
  intros _ i d _ E. assert (d = ex_devA \/ d = ex_devB) as D.
  { unfold ex_devs in E. destruct (in_dev i) as [|[|k]]; cbn in E; [injection E as <-; auto|injection E as <-; auto|destruct k; discriminate E]. }
  destruct D as [->| ->].
  - split; [exists ex_cert; split; [reflexivity|apply ex_trusted2]|]. intros c [X|[]]. injection X as <-. apply ex_loads. now left.
  - split; [exists ex_cert2; split; [reflexivity|apply ex_trusted2]|]. intros c [X|[<-|[]]]; [injection X as <-|]; apply ex_loads; auto.
Qed.

Definition ex_qv (i : instr) : request * verifier := (instr_request (ex_dev i) i, verifier_of ex_ks (dv_cert (ex_dev i))).
Lemma ex_register_of r os : forall l, of_register r (combine os (ex_asked l)) = map ex_qv (of_register r (combine os l)).
Proof.
  unfold of_register, ex_asked. induction os as [|o os IH]; intros [|i l]; try reflexivity. cbn [map combine filter fst].
  destruct (o =? r)%nat; cbn [map snd]; now rewrite IH.
Qed.
Local Ltac listed := cbn [owners ex_test ex_test2 ex_in in_new in_cont combine of_register filter fst snd map Nat.eqb].
Local Ltac cases E l := cbn [app] in E;
  repeat (destruct l as [|? l]; cbn [app] in E;
    [first [discriminate E | injection E; clear E; intros; subst]|first [discriminate E | injection E as <- E]]).
Local Ltac registers := unfold register_orderly, ex_qv; cbn [map fst snd];
  split; [repeat (constructor; [apply ex_in_ok; [now apply ex_identifier|lia|lia]|]); constructor|];
  split; [let E := fresh in intros ? ? E; first [discriminate E|injection E as <- _; apply ex_in_plain]|];
  split; [let E := fresh in let l := fresh in intros l ? ? ? E; cases E l; (split; [split; intros _; reflexivity|reflexivity])|];
  split; [let E := fresh in let l := fresh in let W1 := fresh in let W2 := fresh in intros l ? ? ? ? E W1 W2 _; cases E l;
          first [apply ex_in_plain | exfalso; apply W1; do 3 eexists; reflexivity | destruct W2 as (? & ? & ? & W2); discriminate W2]|];
  let E := fresh in let T := fresh in let l := fresh in intros l ? ? ? E _ T; apply turnover_calc in T; subst; cases E l; vm_compute; (split; [discriminate|reflexivity]).

Lemma combine_split {A B} (f : B -> A) (os : list nat) : forall l a o x b, combine os (map f l) = a ++ (o, x) :: b ->
  exists a' y b', combine os l = a' ++ (o, y) :: b' /\ x = f y /\ List.length a' = List.length a /\ a = map (fun z : nat * B => (fst z, f (snd z))) a'.
Proof.
  induction os as [|k os IH]; intros [|i l] a o x b E; try (destruct a; discriminate E). cbn [map combine] in *. destruct a as [|y a]; cbn [app] in E.
  - injection E as -> <- _. exists [], i, (combine os l). auto.
  - injection E as <- E. destruct (IH _ _ _ _ _ E) as (a' & z & b' & E1 & E2 & E3 & E4). exists ((k, i) :: a'), z, b'. rewrite E1. cbn [List.length map fst snd]. rewrite E3, <- E4. auto.
Qed.
Lemma ex_totals l os : (forall l1 i l2 o l3 i' l4 x, l = l1 ++ i :: l2 -> ends_dep l2 -> in_turnover i = Some x -> ~ is_zero x ->
    combine os l = l3 ++ (o, i') :: l4 -> List.length l3 = List.length l1 ->
    exists z, money x z /\ requests_turnover (map (fun i => instr_request (ex_dev i) i) (of_register o (l3 ++ [(o, i')]))) z) ->
  totals_stated l (combine os (ex_asked l)).
Proof.
  intros H l1 i l2 t1 o qv t2 x E En Ex Nx E2 L. apply combine_split in E2 as (l3 & i' & l4 & E3 & -> & E4 & ->).
  destruct (H l1 i l2 o l3 i' l4 x E En Ex Nx E3 ltac:(congruence)) as (z & M & T). exists z. split; [exact M|].
  match goal with |- requests_turnover ?a _ => match type of T with requests_turnover ?b _ => replace a with b; [exact T|] end end.
  unfold of_register. rewrite !filter_app, !map_app. f_equal.
  - clear. induction l3 as [|[k y] l3 IH]; [reflexivity|]. cbn [map filter fst snd]. destruct (k =? o)%nat; cbn [map fst snd]; now rewrite IH.
  - cbn [filter fst]. rewrite Nat.eqb_refl. reflexivity.
Qed.

Lemma ex_test_rules : test_rules toy_world ex_ks 8 B_natural true ex_devs ex_test (ex_asked ex_test).
Proof.
  split; [|split; [|split; [|split; [|split; [|split; [|split]]]]]].
  - apply ex_asked_ok. repeat constructor.
  - do 2 eexists. split; reflexivity.
  - intros l1 i l2 E N k C. unfold ex_test in E. cases E l1; try discriminate N; try discriminate C; injection C as <-; [exists 0%nat|exists 2%nat]; (split; [cbn; lia|reflexivity]).
  - intros r. rewrite ex_register_of. revert r. intros [|[|[|r]]]; listed.
    + registers.
    + registers.
    + registers.
    + registers.
  - intros r p q l1 l2 E1 E2. rewrite ex_register_of in E1, E2. revert r E1 E2. intros [|[|[|r]]]; listed; intros E1 E2; try discriminate E1; try discriminate E2;
      injection E1 as <- _; injection E2 as <- _; repeat split.
  - cbn [ids_new]. vm_compute. repeat split; try exact I; (eexists; eexists; split; [reflexivity|split; [reflexivity|reflexivity]]).
  - apply ex_devs_trusted.
  - apply ex_totals.
    intros l1 i l2 o l3 i' l4 x E1 En Ex Nx. change (combine (owners 1 0 ex_test) ex_test) with (combine [0;0;1;1;0;1;2]%nat ex_test). intros E2 L. unfold ex_test in E1.
    cases E1 l1; try discriminate Ex; cbn [in_turnover ex_in] in Ex; injection Ex as <-;
      repeat (destruct l3 as [|? l3]; [first [discriminate L|clear L]|first [discriminate L|injection L as L]]);
      cbn [combine app ex_test] in E2; injection E2; intros; subst; eexists.
    + split; [apply (money_cents false 1250); [reflexivity|discriminate]|]. listed. cbn [app filter fst Nat.eqb map snd].
      exists [0%Z; 1250%Z]. split; [|reflexivity]. repeat (constructor; [right; split; [reflexivity|]; apply ex_in_total; discriminate|]). constructor.
    + split; [apply (money_cents false 1350); [reflexivity|discriminate]|]. listed.
      exists [0%Z; 1250%Z; 100%Z]. split; [|reflexivity]. repeat (constructor; [right; split; [reflexivity|]; apply ex_in_total; discriminate|]). constructor.
Qed.

Lemma ex_test_newest : newest_in_use ex_test (owners 1 0 ex_test).
Proof.
  change (owners 1 0 ex_test) with [0; 0; 1; 1; 0; 1; 2]%nat. intros l1 p i l2 o E N O j k L J. unfold ex_test in E. cases E l1; try discriminate N; cbn in O, L; apply Some_inj in O; subst o;
    repeat (destruct j as [|j]; [apply Some_inj in J; subst k; lia|]); lia.
Qed.
Lemma ex_name : identifier (lit "REG-1").
Proof. split; [discriminate|]. split; [intros [X|[X|[X|[X|[X|[]]]]]]; discriminate X|]. exists (lit "REG-1"). reflexivity. Qed.
Lemma ex_turnovers : requests_turnover (map fst (of_register 0 (combine (owners 1 0 ex_test) (ex_asked ex_test)))) 1350
  /\ requests_turnover (map fst (of_register 1 (combine (owners 1 0 ex_test) (ex_asked ex_test)))) 500.
Proof.
  rewrite !ex_register_of. listed. unfold ex_qv. cbn [map fst]. split; [exists [0; 1250; 100]%Z|exists [0; 500; 0]%Z]; (split; [|reflexivity]);
    repeat (constructor; [right; split; [reflexivity|]; apply ex_in_total; discriminate|]); constructor.
Qed.
Lemma ex_test_accepted : exists deps c, runTest toy_world (lit "REG-1") ex_key 8 true ex_devs ex_test = Ok deps
  /\ testVerify toy_world ex_ks ex_key B_natural deps = T_ok c /\ List.length deps = 5%nat
  /\ List.length (c_regs c) = 3%nat
  /\ (exists r0 r1 r2, c_regs c = [r0; r1; r2] /\ s_counter r0 = 1350%Z /\ s_counter r1 = 500%Z)
  /\ c_used c = Natural (Some (lit "1")) (Some (lit "7")).
Proof.
  destruct (runTest_accepted toy_world ex_ks B_natural (lit "REG-1") ex_key 8 true ex_devs ex_test (ex_asked ex_test) toy_hash_ok toy_aes_ok toy_pem_ok
    ex_name eq_refl ltac:(lia) ex_test_rules ex_test_newest) as (deps & c & A & B & C & D & E & F).
  exists deps, c. split; [exact A|]. split; [exact B|]. split; [exact C|].
  assert (List.length (c_regs c) = 3%nat) as L.
  { pose proof (proj2 (D 2%nat) ltac:(cbn; tauto)). destruct (Nat.eq_dec (List.length (c_regs c)) 3) as [X|X]; [exact X|].
    assert (In 3%nat (owners 1 0 ex_test)) as Y by (apply D; lia). cbn in Y. intuition discriminate. }
  split; [exact L|]. split; [|rewrite F; reflexivity].
  destruct (c_regs c) as [|r0 [|r1 [|r2 [|r3 rs]]]]; try discriminate L. exists r0, r1, r2. split; [reflexivity|].
  split; [apply (E 0%nat); [reflexivity|apply ex_turnovers]|apply (E 1%nat); [reflexivity|apply ex_turnovers]].
Qed.

(** The register added last is not in use when another one is added. *)
Lemma ex_test2_rules : test_rules toy_world ex_ks 8 B_natural true ex_devs ex_test2 (ex_asked ex_test2).
Proof.
  split; [|split; [|split; [|split; [|split; [|split; [|split]]]]]].
  - apply ex_asked_ok. repeat constructor.
  - do 2 eexists. split; reflexivity.
  - intros l1 i l2 E N k C. unfold ex_test2 in E. cases E l1; try discriminate N; try discriminate C; injection C as <-; [exists 0%nat|exists 1%nat]; (split; [cbn; lia|reflexivity]).
  - intros r. rewrite ex_register_of. revert r. intros [|[|[|r]]]; listed; registers.
  - intros r p q l1 l2 E1 E2. rewrite ex_register_of in E1, E2. revert r E1 E2. intros [|[|[|r]]]; listed; intros E1 E2; try discriminate E1; try discriminate E2;
      injection E1 as <- _; injection E2 as <- _; repeat split.
  - cbn [ids_new]. vm_compute. repeat split; try exact I; (eexists; eexists; split; [reflexivity|split; [reflexivity|reflexivity]]).
  - apply ex_devs_trusted.
  - apply ex_totals. intros l1 i l2 o l3 i' l4 x E1 En Ex. unfold ex_test2 in E1. cases E1 l1; discriminate Ex.
Qed.
Definition ex_deps2 : list json := Eval vm_compute in match runTest toy_world (lit "REG-1") ex_key 8 true ex_devs ex_test2 with Ok d => d | Err _ => [] end.
Lemma ex_index : exists w ks b id key size multi devs l qs deps, hash_ok w /\ aes_ok w /\ pem_ok w
  /\ identifier id /\ List.length key = 32%nat /\ (5 <= size <= 16)%nat /\ test_rules w ks size b multi devs l qs
  /\ runTest w id key size multi devs l = Ok deps /\ testVerify w ks key b deps = T_raised (ChainingError (lit "5")).
Proof.
  exists toy_world, ex_ks, B_natural, (lit "REG-1"), ex_key, 8%nat, true, ex_devs, ex_test2, (ex_asked ex_test2), ex_deps2.
  split; [exact toy_hash_ok|]. split; [exact toy_aes_ok|]. split; [exact toy_pem_ok|]. split; [exact ex_name|]. split; [reflexivity|]. split; [lia|].
  split; [exact ex_test2_rules|]. split; [vm_compute; reflexivity|]. vm_compute. reflexivity.
Qed.

(** A stated turnover of zero is not checked. *)
Definition ex_test3 : list instr :=
  [ex_in (lit "1") 0 0 0 false NO_NEW_DEP None None;
   ex_in (lit "2") 1 1250 0 false NO_NEW_DEP None (Some (S754_zero false))].
Definition ex_deps3 : list json := Eval vm_compute in match runTest toy_world (lit "REG-1") ex_key 8 false ex_devs ex_test3 with Ok d => d | Err _ => [] end.
Lemma ex_zero_total : exists w ks b id key size multi devs l x deps c r, hash_ok w /\ aes_ok w /\ pem_ok w
  /\ is_zero x /\ map in_turnover l = [None; Some x]
  /\ runTest w id key size multi devs l = Ok deps /\ testVerify w ks key b deps = T_ok c /\ c_regs c = [r] /\ s_counter r = 1250%Z.
Proof.
  exists toy_world, [(lit "U:ATU12345678-K0", KeyTuple [7] None)], B_natural, (lit "REG-1"), ex_key, 8%nat, false, ex_devs, ex_test3, (S754_zero false), ex_deps3.
  do 2 eexists. split; [exact toy_hash_ok|]. split; [exact toy_aes_ok|]. split; [exact toy_pem_ok|]. split; [now exists false|]. split; [reflexivity|].
  split; [vm_compute; reflexivity|]. split; [vm_compute; reflexivity|]. split; vm_compute; reflexivity.
Qed.
