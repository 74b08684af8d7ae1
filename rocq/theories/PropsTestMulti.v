(** C81 Groups of test cases: testVerifyMulti and test_verify.py. *)
From Coq Require Import Floats.SpecFloat.
From Verif Require Import PyBase World Codec PyFloat PyTime Receipt SpecReceipt SpecKeys Json KeyStore State DepParser Verify
  SpecPool SpecState RunTest TestVerify TestSetup SpecSetup TestMulti SpecTestMulti TestMultiFacts
  ExampleWorld ExampleDep ExamplePool ExampleRunTest ExampleTestVerify ExampleSetup ExampleFlaw ExampleTestMulti.
Open Scope N_scope.

(** The combinations of sizes, cases and kinds of systems have one order. *)
Theorem C81_turn : forall sizes cases, exists ps, in_turn sizes cases ps /\ forall ps', in_turn sizes cases ps' -> ps' = ps.
Proof. exact (fun sizes cases => ex_intro _ _ (conj (turn_exists sizes cases) (fun ps' H => turn_unique _ _ _ _ H (turn_exists sizes cases)))). Qed.
Print Assumptions C81_turn.

Example C81_turn_case : in_turn [8; 10]%nat [ex_case_both; ex_case_closed] [(0, 0, false); (0, 0, true); (0, 1, true); (1, 0, false); (1, 0, true); (1, 1, true)]%nat.
Proof. exact ex_turn. Qed.

(** For complete arguments there is one row for each combination in this order, with the
    outcome the case has alone with that size and the key material for that kind of system.
    The report gives all rows and their numbers, the exit status the worst result. If
    an exception escapes from a test, the rows before it are given. *)
Theorem C81_multi : forall w say b env read_case read args priv crt pub sizes group cases ps,
  multi_command w read_case read args priv crt pub sizes group cases -> in_turn sizes cases ps ->
  (forall out st, test_verify_py w say b env read_case read args = (out, S_exit st) <->
     exists rows lines last, rows_for w say b env group crt pub priv sizes cases ps rows /\ List.length rows = List.length ps
       /\ lines_of rows lines /\ summary_of rows last /\ out = lines ++ [last] /\ right_status rows st)
  /\ (forall out e, test_verify_py w say b env read_case read args = (out, S_raised e) <->
     exists rows, rows_for w say b env group crt pub priv sizes cases ps rows /\ lines_of rows out
       /\ exists i j c size tc, nth_error ps (List.length rows) = Some (i, j, c) /\ nth_error sizes i = Some size /\ nth_error cases j = Some tc
          /\ escapes w say b (env (List.length rows)) crt pub priv size tc c e).
Proof. exact multi_ends. Qed.
Print Assumptions C81_multi.

Example C81_multi_case :
  multi_command toy_world ex_read_case ex_read_key (ex_multi [lit "both"; lit "closed"]) ex_prv ex_crt ex_pub [8; 10]%nat (lit "group") [ex_case_both; ex_case_closed]
  /\ test_verify_py toy_world ex_say B_unique (ex_env true) ex_read_case ex_read_key (ex_multi [lit "closed"; lit "wrong"; lit "unnamed"]) = (ex_report, S_exit 2)
  /\ hd [] ex_report = lit "closed                                  (closed,  8,    group)......OK"
  /\ last ex_report [] = lit "8 tests run, 2 failed, 4 errors".
Proof. exact (conj (ex_multi_command [lit "both"; lit "closed"] [ex_case_both; ex_case_closed] ltac:(discriminate) ltac:(repeat constructor)) (conj ex_mixed (conj eq_refl eq_refl))). Qed.

(** One case alone; the size in its row is that of the counters. *)
Theorem C81_single : forall w say b env read_case read args closed priv pub label sp x,
  single_command w read_case read args closed priv pub label sp x ->
  (forall out st, test_verify_py w say b env read_case read args = (out, S_exit st) <->
     exists r msg, testVerify_full w (ch_maker (env 0%nat)) say (ch_sch (env 0%nat)) (ch_random (env 0%nat)) x b sp pub priv closed = Ok (r, msg)
       /\ lines_of [Row label (lit "no Group") closed (counter_size sp None) r msg] out
       /\ right_status [Row label (lit "no Group") closed (counter_size sp None) r msg] st)
  /\ (forall out e, test_verify_py w say b env read_case read args = (out, S_raised e) <->
     out = [] /\ testVerify_full w (ch_maker (env 0%nat)) say (ch_sch (env 0%nat)) (ch_random (env 0%nat)) x b sp pub priv closed = Err e).
Proof. exact single_ends. Qed.
Print Assumptions C81_single.

Example C81_single_case : single_command toy_world ex_read_case ex_read_key [lit "closed"; lit "both"; lit "key"; lit "pub"] true ex_prv ex_pub (lit "one device") ex_sp_one (ex_expect None None).
Proof. exact ex_single. Qed.

(** Called directly for any cases, testVerifyMulti takes a system as closed only if the case says so,
    and each row has the outcome of its case alone. *)
Theorem C81_library : forall w say b env group crt pub priv default cases i rows e, testVerifyMulti w say b env group crt pub priv default i cases = (rows, e) ->
  forall n r, nth_error rows n = Some r -> exists tc closed, nth_error cases n = Some tc /\ (closed = true <-> tc_closed tc = Some true)
    /\ row_closed r = closed /\ row_group r = group /\ (row_size r = default \/ ts_size (tc_spec tc) <> None) /\ (forall s, ts_size (tc_spec tc) = Some s -> row_size r = s)
    /\ ((forall l, ~ named tc l) /\ row_label r = lit "Unknown" /\ row_result r = R_ERROR
        \/ named tc (row_label r) /\ testVerify_full w (ch_maker (env (i + n)%nat)) say (ch_sch (env (i + n)%nat)) (ch_random (env (i + n)%nat)) (tc_expect tc) b (tc_spec tc)
             (if closed then pub else crt) priv closed = Ok (row_result r, row_msg r)).
Proof. exact library_rows. Qed.
Print Assumptions C81_library.

Example C81_library_case : forall w say b env crt pub priv x sp, exists e,
  testVerifyMulti w say b env (lit "group") crt pub priv 8 0 [TCase None None sp x] =
    ([Row (lit "Unknown") (lit "group") false (match ts_size sp with Some n => n | None => 8%nat end) R_ERROR (Some (lit "No run label"))], e).
Proof. intros. eexists. reflexivity. Qed.

(** Lines of the report that fit into its columns tell all about their rows. *)
Theorem C81_line : forall r r', fits_columns r -> fits_columns r' -> row_line r = row_line r' ->
  row_label r = row_label r' /\ row_closed r = row_closed r' /\ row_size r = row_size r' /\ row_group r = row_group r' /\ row_result r = row_result r'.
Proof. exact line_readable. Qed.
Print Assumptions C81_line.

Example C81_line_case : fits_columns (Row (lit "one device") (lit "group") true 8 R_FAIL None)
  /\ row_line (Row (lit "one device") (lit "group") true 8 R_FAIL None) = lit "one device                              (closed,  8,    group)....FAIL".
Proof. exact (conj ex_fits eq_refl). Qed.

(** If all cases are in order for all sizes and kinds of systems, the status is zero. *)
Theorem C81_passes : forall w say b env read_case read args priv crt pub sizes group cases,
  hash_ok w -> aes_ok w -> pem_ok w -> cert_keys_ok w -> (forall n i, isolated (ch_sch (env n) i)) ->
  multi_command w read_case read args priv crt pub sizes group cases ->
  (forall n size tc c, In size sizes -> In tc cases -> tc_closed tc = None \/ tc_closed tc = Some c -> case_in_order w b (ch_maker (env n)) crt pub priv size tc c) ->
  exists out, test_verify_py w say b env read_case read args = (out, S_exit 0).
Proof. exact all_pass. Qed.
Print Assumptions C81_passes.

Example C81_passes_case : (forall n size tc c, In size [8; 10]%nat -> In tc [ex_case_both; ex_case_closed] ->
    case_in_order toy_world B_unique (ch_maker (ex_env true n)) ex_crt ex_pub ex_prv size tc c)
  /\ exists out, test_verify_py toy_world ex_say B_unique (ex_env true) ex_read_case ex_read_key (ex_multi [lit "both"; lit "closed"]) = (out, S_exit 0).
Proof. exact (conj ex_cases_in_order ex_all_pass). Qed.

(** Not every combination gets a row: an exception may escape from a test, and the
    status is then that of a failed test. *)
Theorem C81_report_refuted : exists w say b env read_case read args priv crt pub sizes group cases out s,
  multi_command w read_case read args priv crt pub sizes group cases /\ cases <> [] /\ sizes <> []
  /\ test_verify_py w say b env read_case read args = (out, s) /\ out = [] /\ status_of s = 1.
Proof. exact ex_lost. Qed.
Print Assumptions C81_report_refuted.

(** The default size given to testVerifyMulti is reported, but not used: here the row
    says 5, but the receipts are those with counters of 8 octets. *)
Theorem C81_default_refuted : exists w say b ch group crt pub priv default tc r,
  test_row w say b ch group crt pub priv default tc = Ok r /\ row_size r = default /\ ts_size (tc_spec tc) = None
  /\ runTest_full w (ch_maker ch) (tc_spec tc) [(pub, priv)] true None = runTest_full w (ch_maker ch) (tc_spec tc) [(pub, priv)] true (Some 8%nat)
  /\ runTest_full w (ch_maker ch) (tc_spec tc) [(pub, priv)] true None <> runTest_full w (ch_maker ch) (tc_spec tc) [(pub, priv)] true (Some default).
Proof. exact ex_default_unused. Qed.
Print Assumptions C81_default_refuted.
