(** What is said about groups of test cases. *)
From Coq Require Import Sorting.Sorted.
From Verif Require Import PyBase World Codec Json State RunTest TestVerify TestSetup SpecReceipt SpecCashReg SpecSetup TestMulti.
Open Scope N_scope.

(** A combination: the numbers of size and case, and whether the system is closed *)
Definition combination : Type := nat * nat * bool.
(** Sizes first, then cases, then open systems before closed ones *)
Definition earlier (p q : combination) : Prop :=
  let '(i, j, c) := p in let '(i', j', c') := q in
  (i < i' \/ i = i' /\ (j < j' \/ j = j' /\ c = false /\ c' = true))%nat.
(** Every combination once and in order; some cases are for one kind of system only. *)
Definition in_turn (sizes : list nat) (cases : list tcase) (ps : list combination) : Prop :=
  StronglySorted earlier ps
  /\ forall i j c, In (i, j, c) ps <->
       exists size tc, nth_error sizes i = Some size /\ nth_error cases j = Some tc /\ (tc_closed tc = None \/ tc_closed tc = Some c).

(** The specification with another counter size *)
Definition same_but_size (sp sp' : tspec) (n : nat) : Prop :=
  ts_size sp' = Some n /\ ts_number sp' = ts_number sp /\ ts_aes sp' = ts_aes sp /\ ts_id sp' = ts_id sp /\ ts_company sp' = ts_company sp
  /\ ts_multi sp' = ts_multi sp /\ ts_decimal sp' = ts_decimal sp /\ ts_public sp' = ts_public sp /\ ts_length sp' = ts_length sp
  /\ ts_nosign sp' = ts_nosign sp /\ ts_noroot sp' = ts_noroot sp /\ ts_failure sp' = ts_failure sp /\ ts_collision sp' = ts_collision sp /\ ts_instrs sp' = ts_instrs sp.

Definition named (tc : tcase) (label : str) : Prop := tc_label tc = Some label /\ label <> lit "Unknown".

(** The outcome of a case alone *)
Definition alone (w : world) (say : exn -> str) (b : backend) (ch : chance) (crt pub priv : str) (size : nat) (tc : tcase) (closed : bool)
    (o : result (tresult * option str)) : Prop :=
  exists sp, same_but_size (tc_spec tc) sp size
    /\ testVerify_full w (ch_maker ch) say (ch_sch ch) (ch_random ch) (tc_expect tc) b sp (if closed then pub else crt) priv closed = o.
Inductive tested (w : world) (say : exn -> str) (b : backend) (ch : chance) (group crt pub priv : str) (size : nat) (tc : tcase) (closed : bool) : row -> Prop :=
| tested_unnamed : (forall l, ~ named tc l) ->
    tested w say b ch group crt pub priv size tc closed (Row (lit "Unknown") group closed size R_ERROR (Some (lit "No run label")))
| tested_named l r msg : named tc l -> alone w say b ch crt pub priv size tc closed (Ok (r, msg)) ->
    tested w say b ch group crt pub priv size tc closed (Row l group closed size r msg).
Definition escapes (w : world) (say : exn -> str) (b : backend) (ch : chance) (crt pub priv : str) (size : nat) (tc : tcase) (closed : bool) (e : exn) : Prop :=
  exists l, named tc l /\ alone w say b ch crt pub priv size tc closed (Err e).

(** Rows for the first combinations; test number [n] has its own chances. *)
Definition rows_for (w : world) (say : exn -> str) (b : backend) (env : nat -> chance) (group crt pub priv : str) (sizes : list nat) (cases : list tcase)
    (ps : list combination) (rows : list row) : Prop :=
  (List.length rows <= List.length ps)%nat
  /\ forall n r, nth_error rows n = Some r -> exists i j c size tc,
       nth_error ps n = Some (i, j, c) /\ nth_error sizes i = Some size /\ nth_error cases j = Some tc
       /\ tested w say b (env n) group crt pub priv size tc c r.

(** Complete arguments for many cases *)
Definition multi_command (w : world) (read_case : str -> result tcase) (read : str -> result str) (args : list str)
    (priv crt pub : str) (sizes : list nat) (group : str) (cases : list tcase) : Prop :=
  exists fpriv fcrt fpub texts files,
    args = lit "multi" :: fpriv :: fcrt :: fpub :: join [c_comma] texts :: group :: files
    /\ read fpriv = Ok priv /\ read fcrt = Ok crt /\ read fpub = Ok pub
    /\ texts <> [] /\ Forall2 (fun t n => ~ In c_comma t /\ py_int w 10 t = Some (Z.of_nat n) /\ (5 <= n <= 16)%nat) texts sizes
    /\ files <> [] /\ Forall2 (fun f tc => read_case f = Ok tc) files cases.

(** How many rows have a result *)
Inductive counted (x : tresult) : list row -> nat -> Prop :=
| counted_none : counted x [] 0
| counted_one r l n : row_result r = x -> counted x l n -> counted x (r :: l) (S n)
| counted_other r l n : row_result r <> x -> counted x l n -> counted x (r :: l) n.

(** The lines for a row and the last line *)
Definition lines_of (rows : list row) (out : list str) : Prop :=
  exists ls, Forall2 (fun r l => l = row_line r :: match row_msg r with Some m => [m] | None => [] end) rows ls /\ out = List.concat ls.
Definition summary_of (rows : list row) (line : str) : Prop :=
  exists f e, counted R_FAIL rows f /\ counted R_ERROR rows e
    /\ line = fmt_d (Z.of_nat (List.length rows)) ++ lit " tests run, " ++ fmt_d (Z.of_nat f) ++ lit " failed, " ++ fmt_d (Z.of_nat e) ++ lit " errors".

(** The exit status due *)
Definition right_status (rows : list row) (st : N) : Prop :=
  (st = 0 <-> Forall (fun r => row_result r = R_OK) rows)
  /\ (st = 2 <-> Exists (fun r => row_result r = R_ERROR) rows)
  /\ (st = 1 <-> Exists (fun r => row_result r = R_FAIL) rows /\ ~ Exists (fun r => row_result r = R_ERROR) rows).

(** Rows that fit into the columns *)
Definition fits_columns (r : row) : Prop :=
  (List.length (row_label r) <= 40)%nat /\ (forall s, row_label r <> s ++ [32])
  /\ (List.length (row_group r) <= 8)%nat /\ (forall s, row_group r <> 32 :: s)
  /\ (row_size r < 100)%nat.

(** A case in order for a counter size and a kind of system, as in C78 *)
Definition case_in_order (w : world) (b : backend) (m : maker) (crt pub priv : str) (size : nat) (tc : tcase) (closed : bool) : Prop :=
  (exists l, named tc l) /\ ex_type (tc_expect tc) = None
  /\ (exists own, maker_ok w own m
        /\ setup_ok w own m (tc_spec tc) closed (repeat (if closed then pub else crt, priv) (Z.to_nat (ts_number (tc_spec tc)))))
  /\ (0 <= ts_number (tc_spec tc))%Z
  /\ (exists key, loadB64Key (ts_aes (tc_spec tc)) = Ok key /\ List.length key = 32%nat)
  /\ identifier (ts_id (tc_spec tc))
  /\ instructions_ok w closed (Z.to_nat (ts_number (tc_spec tc))) size b (ts_instrs (tc_spec tc)).

(** Complete arguments for one case *)
Definition single_command (w : world) (read_case : str -> result tcase) (read : str -> result str) (args : list str)
    (closed : bool) (priv pub label : str) (sp : tspec) (x : expectation) : Prop :=
  exists file fpriv fpub tail tc,
    args = (if closed then lit "closed" else lit "open") :: file :: fpriv :: fpub :: tail
    /\ read_case file = Ok tc /\ tc_label tc = Some label /\ tc_expect tc = x /\ read fpriv = Ok priv /\ read fpub = Ok pub
    /\ (tail = [] /\ sp = tc_spec tc
        \/ exists t n, tail = [t] /\ py_int w 10 t = Some (Z.of_nat n) /\ (5 <= n <= 16)%nat /\ same_but_size (tc_spec tc) sp n).
