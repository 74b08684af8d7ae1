(** Groups of test cases in the toy world. *)
From Coq Require Import Lia ZifyClasses ZifyN ZifyNat ZifyBool Sorting.Sorted Floats.SpecFloat.
From Verif Require Import PyBase ListFacts World Codec PyFloat PyTime Receipt Json KeyStore VerifyReceipt State DepParser Verify DepExport
  SpecReceipt SpecDep SpecCluster SpecAmount SpecKeys SpecPool SpecState CashReg SpecCashReg Override RunTest SpecRunTest TestVerify TestSetup SpecSetup SetupFacts SetupTest
  TestMulti SpecTestMulti TestMultiFacts ExampleWorld ExampleDep ExampleCashReg ExamplePool ExampleRunTest ExampleTestVerify ExampleSetup ExampleFlaw.
Open Scope N_scope.

(** Counters may be larger. *)
Lemma instructions_larger w closed n s s' b l : (1 <= s <= s')%nat -> instructions_ok w closed n s b l -> instructions_ok w closed n s' b l.
Proof.
  intros L (A1 & A2 & A3 & A4 & A5 & A6 & A7 & A8 & A9 & A10 & A11 & A12). unfold instructions_ok.
  repeat (split; [assumption|]). split; [|repeat (split; [assumption|]); assumption].
  intros r l1 q l2 z E S T. specialize (A9 r l1 q l2 z E S T). unfold counter_fits in *.
  assert (2 ^ (8 * Z.of_nat s - 1) <= 2 ^ (8 * Z.of_nat s' - 1))%Z by (apply Z.pow_le_mono_r; lia). lia.
Qed.

Definition ex_sp_one : tspec := TSpec 1 ex_aes None (lit "REG-1") (lit "U:ATU12345678") true false false None None None None None ex_one.
Lemma ex_setup_one closed : setup_ok toy_world toy_own toy_maker ex_sp_one closed (ex_mats closed 1).
Proof.
  split; [constructor; [apply (ex_material closed)|constructor]|]. split.
  - intros i L. split; [exists false; split; reflexivity|]. split; [intros _; split; reflexivity|]. intros _. exists 0%Z. split; [reflexivity|]. left. lia.
  - assert (forall i u, made_for ex_sp_one closed (List.length (ex_mats closed 1)) i u -> i = 0%nat /\ u = P_self /\ closed = true) as M.
    { intros i u [L H]. cbn in L. split; [lia|]. destruct u as [|j|]; [now split| |destruct H]. destruct H as (_ & n & E & Hn). cbn in E. lia. }
    split; [|split; [intros _; apply ex_company|discriminate]]. split; [|split].
    + intros i u i' u' H H' _. destruct (M _ _ H) as (-> & -> & _), (M _ _ H') as (-> & -> & _). now split.
    + intros E c i u _ H. destruct (M _ _ H) as (_ & _ & E'). congruence.
    + intros E c c' G G' _. apply ex_given in G; [|exact E]. apply ex_given in G'; [|exact E]. congruence.
Qed.

(** One case for both kinds of systems, one for closed systems only *)
Definition ex_case_both : tcase := TCase (Some (lit "one device")) None ex_sp_one (ex_expect None None).
Definition ex_case_closed : tcase := TCase (Some (lit "closed")) (Some true) ex_sp_one (ex_expect None None).
(** The exception that is due has no receipt. *)
Definition ex_case_odd : tcase := TCase (Some (lit "odd")) (Some true) ex_sp_untrusted (ex_expect (Some (lit "UntrustedCertificateException")) (Some (lit "2"))).
(** One that fails and one without a name *)
Definition ex_case_wrong : tcase := TCase (Some (lit "wrong")) (Some true) ex_sp_one (ex_expect (Some (lit "UntrustedCertificateException")) None).
Definition ex_case_unnamed : tcase := TCase None None ex_sp_one (ex_expect None None).

Definition ex_read_case (f : str) : result tcase :=
  if str_eqb f (lit "both") then Ok ex_case_both else if str_eqb f (lit "closed") then Ok ex_case_closed else if str_eqb f (lit "odd") then Ok ex_case_odd
  else if str_eqb f (lit "wrong") then Ok ex_case_wrong else if str_eqb f (lit "unnamed") then Ok ex_case_unnamed else Err PyException.
Definition ex_read_key (f : str) : result str :=
  if str_eqb f (lit "key") then Ok ex_prv else if str_eqb f (lit "pub") then Ok ex_pub else if str_eqb f (lit "crt") then Ok ex_crt else Err PyException.
Definition ex_env (first : bool) (n : nat) : chance := Chance toy_maker (fun _ => ex_run_pool first) (fun i => (n + i)%nat).
Definition ex_multi (files : list str) : list str := [lit "multi"; lit "key"; lit "crt"; lit "pub"; lit "8,10"; lit "group"] ++ files.

Lemma ex_multi_command files cases : files <> [] -> Forall2 (fun f tc => ex_read_case f = Ok tc) files cases ->
  multi_command toy_world ex_read_case ex_read_key (ex_multi files) ex_prv ex_crt ex_pub [8; 10]%nat (lit "group") cases.
Proof.
  intros N F. exists (lit "key"), (lit "crt"), (lit "pub"), [lit "8"; lit "10"], files. split; [reflexivity|]. split; [reflexivity|]. split; [reflexivity|]. split; [reflexivity|]. split; [discriminate|].
  split; [|now split]. apply Forall2_cons; [|apply Forall2_cons; [|apply Forall2_nil]]; (split; [vm_compute; intuition discriminate|]; split; [reflexivity|lia]).
Qed.
Lemma ex_turn : in_turn [8; 10]%nat [ex_case_both; ex_case_closed] [(0, 0, false); (0, 0, true); (0, 1, true); (1, 0, false); (1, 0, true); (1, 1, true)]%nat.
Proof. exact (turn_exists [8; 10]%nat [ex_case_both; ex_case_closed]). Qed.
Lemma ex_cases_in_order n size tc c : In size [8; 10]%nat -> In tc [ex_case_both; ex_case_closed] -> case_in_order toy_world B_unique (ch_maker (ex_env true n)) ex_crt ex_pub ex_prv size tc c.
Proof.
  intros Hs Ht. assert (tc_spec tc = ex_sp_one /\ tc_expect tc = ex_expect None None /\ exists l, named tc l) as (Es & Ee & Nm).
  { destruct Ht as [<-|[<-|[]]]; (split; [reflexivity|]; split; [reflexivity|]); eexists; (split; [reflexivity|discriminate]). }
  split; [exact Nm|]. rewrite Ee, Es. split; [reflexivity|]. split; [exists toy_own; split; [exact toy_maker_ok|exact (ex_setup_one c)]|]. split; [discriminate|].
  split; [exists ex_key; split; [exact ex_aes_loads|reflexivity]|]. split; [exact ex_name|].
  apply (instructions_larger _ _ _ 8); [destruct Hs as [<-|[<-|[]]]; lia|]. apply ex_one_instructions.
Qed.
Lemma ex_all_pass : exists out, test_verify_py toy_world ex_say B_unique (ex_env true) ex_read_case ex_read_key (ex_multi [lit "both"; lit "closed"]) = (out, S_exit 0).
Proof.
  apply (all_pass toy_world ex_say B_unique (ex_env true) ex_read_case ex_read_key _ ex_prv ex_crt ex_pub [8; 10]%nat (lit "group") [ex_case_both; ex_case_closed] toy_hash_ok toy_aes_ok toy_pem_ok toy_cert_keys).
  - intros n i. apply ex_run_isolated.
  - apply ex_multi_command; [discriminate|repeat constructor].
  - intros n size tc c Hs Ht _. now apply ex_cases_in_order.
Qed.

Definition ex_report : list str := Eval vm_compute in fst (test_verify_py toy_world ex_say B_unique (ex_env true) ex_read_case ex_read_key (ex_multi [lit "closed"; lit "wrong"; lit "unnamed"])).
Lemma ex_mixed : test_verify_py toy_world ex_say B_unique (ex_env true) ex_read_case ex_read_key (ex_multi [lit "closed"; lit "wrong"; lit "unnamed"]) = (ex_report, S_exit 2).
Proof. vm_compute. reflexivity. Qed.
Lemma ex_wrong_fails : snd (test_verify_py toy_world ex_say B_unique (ex_env true) ex_read_case ex_read_key (ex_multi [lit "wrong"])) = S_exit 1.
Proof. vm_compute. reflexivity. Qed.
(** The exception escapes, and the case after it is not run. *)
Lemma ex_odd : test_verify_py toy_world ex_say B_unique (ex_env true) ex_read_case ex_read_key (ex_multi [lit "odd"; lit "closed"]) = ([], S_raised PyAttributeError).
Proof. vm_compute. reflexivity. Qed.

(** ** The default size *)
Lemma ex_default : exists r, test_row toy_world ex_say B_unique (ex_env true 0) (lit "group") ex_crt ex_pub ex_prv 5 ex_case_closed = Ok r /\ row_size r = 5%nat
  /\ row_result r = R_OK.
Proof. exists (Row (lit "closed") (lit "group") true 5 R_OK None). split; [vm_compute; reflexivity|split; reflexivity]. Qed.
Lemma ex_default_other : runTest_full toy_world toy_maker ex_sp_one (ex_mats true 1) true None = runTest_full toy_world toy_maker ex_sp_one (ex_mats true 1) true (Some 8%nat)
  /\ runTest_full toy_world toy_maker ex_sp_one (ex_mats true 1) true None <> runTest_full toy_world toy_maker ex_sp_one (ex_mats true 1) true (Some 5%nat).
Proof. split; [vm_compute; reflexivity|]. vm_compute. discriminate. Qed.
Lemma ex_default_unused : exists w say b ch group crt pub priv default tc r,
  test_row w say b ch group crt pub priv default tc = Ok r /\ row_size r = default /\ ts_size (tc_spec tc) = None
  /\ runTest_full w (ch_maker ch) (tc_spec tc) [(pub, priv)] true None = runTest_full w (ch_maker ch) (tc_spec tc) [(pub, priv)] true (Some 8%nat)
  /\ runTest_full w (ch_maker ch) (tc_spec tc) [(pub, priv)] true None <> runTest_full w (ch_maker ch) (tc_spec tc) [(pub, priv)] true (Some default).
Proof.
  destruct ex_default as (r & E & S & _). exists toy_world, ex_say, B_unique, (ex_env true 0), (lit "group"), ex_crt, ex_pub, ex_prv, 5%nat, ex_case_closed, r.
  split; [exact E|]. split; [exact S|]. split; [reflexivity|]. exact ex_default_other.
Qed.
Lemma ex_lost : exists w say b env read_case read args priv crt pub sizes group cases out s,
  multi_command w read_case read args priv crt pub sizes group cases /\ cases <> [] /\ sizes <> []
  /\ test_verify_py w say b env read_case read args = (out, s) /\ out = [] /\ status_of s = 1.
Proof.
  exists toy_world, ex_say, B_unique, (ex_env true), ex_read_case, ex_read_key, (ex_multi [lit "odd"; lit "closed"]), ex_prv, ex_crt, ex_pub, [8; 10]%nat, (lit "group"), [ex_case_odd; ex_case_closed], [], (S_raised PyAttributeError).
  split; [apply ex_multi_command; [discriminate|repeat constructor]|]. split; [discriminate|]. split; [discriminate|]. split; [exact ex_odd|]. now split.
Qed.
Lemma ex_fits : fits_columns (Row (lit "one device") (lit "group") true 8 R_FAIL None).
Proof.
  split; [vm_compute; lia|]. split; [|split; [vm_compute; lia|split; [discriminate|cbn; lia]]].
  intros s E. apply (f_equal (fun l => last l 0)) in E. rewrite last_last in E. vm_compute in E. discriminate E.
Qed.
Lemma ex_single : single_command toy_world ex_read_case ex_read_key [lit "closed"; lit "both"; lit "key"; lit "pub"] true ex_prv ex_pub (lit "one device") ex_sp_one (ex_expect None None).
Proof.
  exists (lit "both"), (lit "key"), (lit "pub"). vm_compute. eauto 20.
Qed.
