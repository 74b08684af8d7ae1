(** Test cases in groups: librksv/test/test_verify.py testVerifyMulti, and
    test_verify.py. *)
From Coq Require Import Floats.SpecFloat.
From Verif Require Import PyBase World Codec Receipt Json KeyStore State DepParser Verify RunTest TestVerify TestSetup.
Open Scope N_scope.
Open Scope py_scope.

(** The parts of a test specification: simulationRunLabel, closedSystem, what
    [runTest] reads, what is expected *)
Record tcase : Type := TCase { tc_label : option str; tc_closed : option bool; tc_spec : tspec; tc_expect : expectation }.

(** What happens by chance while a test runs *)
Record chance : Type := Chance { ch_maker : maker; ch_sch : nat -> schedule; ch_random : nat -> nat }.

(** The tuple of testVerifyMulti *)
Record row : Type := Row { row_label : str; row_group : str; row_closed : bool; row_size : nat; row_result : tresult; row_msg : option str }.

(** One turn of the loop, librksv/test/test_verify.py:344-354 *)
Definition test_row (w : world) (say : exn -> str) (b : backend) (ch : chance) (group crt pub priv : str) (default : nat) (tc : tcase) : result row :=
  let label := match tc_label tc with Some l => l | None => lit "Unknown" end in
  let size := match ts_size (tc_spec tc) with Some n => n | None => default end in
  let closed := match tc_closed tc with Some c => c | None => false end in
  do rm <-
    (if str_eqb label (lit "Unknown") then Ok (R_ERROR, Some (lit "No run label"))
     else testVerify_full w (ch_maker ch) say (ch_sch ch) (ch_random ch) (tc_expect tc) b (tc_spec tc) (if closed then pub else crt) priv closed);
  Ok (Row label group closed size (fst rm) (snd rm)).

(** librksv/test/test_verify.py:315-354 testVerifyMulti: the tuples that are yielded and
    the exception the generator ends with, if any. The cases are counted from [i]. *)
Fixpoint testVerifyMulti (w : world) (say : exn -> str) (b : backend) (env : nat -> chance) (group crt pub priv : str) (default : nat)
    (i : nat) (cases : list tcase) : list row * option exn :=
  match cases with
  | [] => ([], None)
  | tc :: r =>
      match test_row w say b (env i) group crt pub priv default tc with
      | Err e => ([], Some e)
      | Ok x => let (l, e) := testVerifyMulti w say b env group crt pub priv default (S i) r in (x :: l, e)
      end
  end.

(** Formats with a width: [{: <40}], [{: >6}], [{:.>5}] *)
Definition fill_right (n : nat) (s : str) : str := s ++ repeat 32 (n - List.length s).
Definition fill_left (c : N) (n : nat) (s : str) : str := repeat c (n - List.length s) ++ s.

(** librksv/test/test_verify.py:356-362 printTestVerifyResult. A message is an
    exception, which is always true, or a text that is not empty. *)
Definition row_line (r : row) : str :=
  fill_right 40 (row_label r) ++ lit "(" ++ fill_left 32 6 (if row_closed r then lit "closed" else lit "open") ++ lit ", "
  ++ fill_left 32 2 (fmt_d (Z.of_nat (row_size r))) ++ lit ", " ++ fill_left 32 8 (row_group r) ++ lit ")..." ++ fill_left 46 5 (res_name (row_result r)).
Definition printTestVerifyResult (r : row) : list str := row_line r :: match row_msg r with Some m => [m] | None => [] end.

(** librksv/test/test_verify.py:364-367 printTestVerifySummary *)
Definition count_of (x : tresult) (rows : list row) : nat := List.length (filter (fun r => res_eqb (row_result r) x) rows).
Definition printTestVerifySummary (rows : list row) : str :=
  fmt_d (Z.of_nat (List.length rows)) ++ lit " tests run, " ++ fmt_d (Z.of_nat (count_of R_FAIL rows)) ++ lit " failed, "
  ++ fmt_d (Z.of_nat (count_of R_ERROR rows)) ++ lit " errors".

(** test_verify.py:62-78 generate_specs. Assigning the size changes the case for good. *)
Definition with_size (n : nat) (tc : tcase) : tcase :=
  let sp := tc_spec tc in
  TCase (tc_label tc) (tc_closed tc)
    (TSpec (ts_number sp) (ts_aes sp) (Some n) (ts_id sp) (ts_company sp) (ts_multi sp) (ts_decimal sp) (ts_public sp) (ts_length sp)
       (ts_nosign sp) (ts_noroot sp) (ts_failure sp) (ts_collision sp) (ts_instrs sp)) (tc_expect tc).
Definition with_closed (c : bool) (tc : tcase) : tcase := TCase (tc_label tc) (Some c) (tc_spec tc) (tc_expect tc).
Fixpoint generate_specs (sizes : list nat) (cases : list tcase) : list tcase :=
  match sizes with
  | [] => []
  | s :: r =>
      let cases' := map (with_size s) cases in
      flat_map (fun tc => match tc_closed tc with Some _ => [tc] | None => [with_closed false tc; with_closed true tc] end) cases'
      ++ generate_specs r cases'
  end.

(** How the program ends. Python reports exceptions with status 1. *)
Inductive script_end : Type := S_exit (status : N) | S_raised (e : exn).
Definition status_of (s : script_end) : N := match s with S_exit n => n | S_raised _ => 1 end.

(** test_verify.py:51-56. [inl] is the end of the program. *)
Definition tc_size_or_error (w : world) (s : str) : script_end + nat :=
  match py_int w 10 s with
  | None => inl (S_raised PyValueError)
  | Some z => if (z <? 5)%Z || (16 <? z)%Z then inl (S_exit 3) else inr (Z.to_nat z)
  end.
Fixpoint tc_sizes (w : world) (l : list str) : script_end + list nat :=
  match l with
  | [] => inr []
  | s :: r =>
      match tc_size_or_error w s with
      | inl x => inl x
      | inr n => match tc_sizes w r with inl x => inl x | inr ns => inr (n :: ns) end
      end
  end.
Fixpoint read_cases (read : str -> result tcase) (l : list str) : result (list tcase) :=
  match l with
  | [] => Ok []
  | f :: r => do tc <- read f; do tcs <- read_cases read r; Ok (tc :: tcs)
  end.

(** test_verify.py:123-127, 158-162 *)
Definition exit_status (results : list tresult) : N :=
  if existsb (fun r => res_eqb r R_ERROR) results then 2 else if existsb (fun r => res_eqb r R_FAIL) results then 1 else 0.

(** test_verify.py:90-127 *)
Definition test_multi_py (w : world) (say : exn -> str) (b : backend) (env : nat -> chance) (read_case : str -> result tcase) (read : str -> result str)
    (fpriv fcert fpub sizes group : str) (files : list str) : list str * script_end :=
  match tc_sizes w (split_char c_comma sizes) with
  | inl x => ([], x)
  | inr ns =>
      match (do cert <- read fcert; do pub <- read fpub; do priv <- read fpriv; do cases <- read_cases read_case files; Ok (cert, pub, priv, cases)) with
      | Err e => ([], S_raised e)
      | Ok (cert, pub, priv, cases) =>
          let (rows, e) := testVerifyMulti w say b env group cert pub priv 8 0 (generate_specs ns cases) in
          let out := flat_map printTestVerifyResult rows in
          match e with
          | Some e => (out, S_raised e)
          | None => (out ++ [printTestVerifySummary rows], S_exit (exit_status (map row_result rows)))
          end
      end
  end.

(** test_verify.py:129-162 *)
Definition test_single_py (w : world) (say : exn -> str) (b : backend) (ch : chance) (read_case : str -> result tcase) (read : str -> result str)
    (closed : bool) (file fpriv fpub : str) (size : option str) : list str * script_end :=
  match read_case file with
  | Err e => ([], S_raised e)
  | Ok tc =>
      match match size with None => inr tc | Some s => match tc_size_or_error w s with inl x => inl x | inr n => inr (with_size n tc) end end with
      | inl x => ([], x)
      | inr tc =>
          match (do pub <- read fpub; do priv <- read fpriv;
                 match tc_label tc with
                 | None => Err PyKeyError
                 | Some label =>
                     do rm <- testVerify_full w (ch_maker ch) say (ch_sch ch) (ch_random ch) (tc_expect tc) b (tc_spec tc) pub priv closed;
                     Ok (Row label (lit "no Group") closed (match ts_size (tc_spec tc) with Some n => n | None => 8%nat end) (fst rm) (snd rm))
                 end) with
          | Err e => ([], S_raised e)
          | Ok r => (printTestVerifyResult r, S_exit (exit_status [row_result r]))
          end
      end
  end.

(** test_verify.py:87-162: what is printed and how the program ends. The lines with the
    seed, the usage and messages about sizes are left out; texts with lone surrogates,
    which cannot be printed, are not considered. [args] is sys.argv without the name of
    the program. *)
Definition test_verify_py (w : world) (say : exn -> str) (b : backend) (env : nat -> chance) (read_case : str -> result tcase) (read : str -> result str)
    (args : list str) : list str * script_end :=
  match args with
  | mode :: a1 :: a2 :: a3 :: rest =>
      if str_eqb mode (lit "multi") then
        match rest with
        | sizes :: group :: f :: files => test_multi_py w say b env read_case read a1 a2 a3 sizes group (f :: files)
        | _ => ([], S_exit 3)
        end
      else
        match rest with
        | _ :: _ :: _ => ([], S_exit 3)
        | _ =>
            if str_eqb mode (lit "closed") then test_single_py w say b (env 0%nat) read_case read true a1 a2 a3 (hd_error rest)
            else if str_eqb mode (lit "open") then test_single_py w say b (env 0%nat) read_case read false a1 a2 a3 (hd_error rest)
            else ([], S_exit 3)
        end
  | _ => ([], S_exit 3)
  end.
