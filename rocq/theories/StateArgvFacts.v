(** The command line of verification_state.py. *)
From Coq Require Import Lia ZifyClasses ZifyN ZifyNat ZifyBool.
From Verif Require Import PyBase World Codec Receipt Json State DepParser DepExport StateCli TestSetup ListFacts SpecState StateFacts ConvertFacts SpecStateCli StateCliFacts StateCliFacts2
  SetupFacts SpecArgv StateArgv SpecStateArgv.
Open Scope N_scope.
Open Scope py_scope.
Import State.

Lemma number_spec w s z : number_arg w s = Ok z <-> number w s z.
Proof. unfold number_arg, number. destruct (py_int w 10 s); split; intros H; try discriminate; [apply Ok_inj in H|injection H as H]; now subst. Qed.

Local Ltac known := repeat match goal with
  | |- context [str_eqb (lit ?a) (lit ?b)] => let v := eval vm_compute in (str_eqb (lit a) (lit b)) in change (str_eqb (lit a) (lit b)) with v; cbv iota
  end.

Lemma format_spec s f : format_arg s = Some f <-> format_word s f.
Proof.
  split.
  - unfold format_arg. repeat match goal with
    | |- (if str_eqb ?c ?l then _ else _) = _ -> _ => let E := fresh in destruct (str_eqb c l) eqn:E; [apply str_eqb_eq in E; subst c; intros H; injection H as <-; constructor|clear E]
    end. discriminate.
  - intros H. destruct H; reflexivity.
Qed.

Lemma key_spec fs rest key : key_arg fs rest = Some (Ok key) <-> key_words fs rest key.
Proof.
  split.
  - destruct rest as [|f [|]]; cbn [key_arg]; intros H; try discriminate.
    + injection H as <-. constructor.
    + injection H as H. apply bind_Ok in H as (t & T & H). apply bind_Ok in H as (k & K & H). apply Ok_inj in H. subst key.
      unfold loadB64Key in K. apply bind_Ok in K as (e & E & K). econstructor; eassumption.
  - intros H. destruct H as [|f t e k T E K]; [reflexivity|]. cbn [key_arg]. rewrite T. cbn [bind]. unfold loadB64Key. rewrite E. cbn [bind]. rewrite K. reflexivity.
Qed.
Lemma key_shape fs rest : key_arg fs rest <> None <-> (List.length rest <= 1)%nat.
Proof. destruct rest as [|f [|]]; cbn; split; intros H; try lia; try discriminate. now elim H. Qed.

Local Ltac nums := repeat match goal with
  | H : (do _ <- _; _) = Ok _ |- _ => let z := fresh "z" in let Z := fresh "Z" in apply bind_Ok in H as (z & Z & H)
  | H : Ok _ = Ok _ |- _ => apply Ok_inj in H; subst
  | H : number_arg _ _ = Ok _ |- _ => apply number_spec in H
  | H : Some _ = Some _ |- _ => injection H as H
  | H : None = Some _ |- _ => discriminate H
  | H : _ = ?c :> state_cmd |- _ => is_var c; subst c
  end.
Local Ltac word E := match goal with
  | H : (if str_eqb ?c ?l then _ else _) = _ |- _ => destruct (str_eqb c l) eqn:E; [apply str_eqb_eq in E; subst c|clear E]
  end.

(** The words of the command *)
Theorem argv_spec w fs words cmd : state_argv w fs words = Some (Ok cmd) <-> asks w fs words cmd.
Proof.
  split.
  - intros H. destruct words as [|c rest]; [discriminate|]. cbn [state_argv] in H.
    word E. { destruct rest; nums. constructor. }
    word E. { destruct rest; nums. constructor. }
    word E. { destruct rest; nums. constructor. }
    word E. { destruct rest as [|n [|]]; nums. now constructor. }
    word E. { destruct rest as [|n [|]]; nums. now constructor. }
    word E. { destruct rest as [|n [|a [|]]]; nums. now constructor. }
    word E. { destruct rest as [|n [|a [|]]]; nums. now constructor. }
    word E. { destruct rest as [|n [|a [|]]]; nums. now constructor. }
    word E. { destruct rest as [|n [|]]; nums. now constructor. }
    word E. { destruct rest as [|n [|a [|]]]; nums. now constructor. }
    word E. { destruct rest as [|a [|]]; nums. destruct (str_eqb a (lit "None")) eqn:E.
      - apply str_eqb_eq in E. subst a. nums. constructor.
      - nums. constructor; [|assumption]. intros ->. rewrite str_eqb_refl in E. discriminate. }
    word E. { destruct rest as [|n [|a [|m [|]]]]; nums. now constructor. }
    word E. { destruct rest as [|n [|a rest]]; nums. destruct (key_arg fs rest) as [k|] eqn:K; cbn [option_map] in H; nums.
      apply (as_update w fs n _ a _ rest); [assumption|assumption|]. now apply key_spec. }
    word E. { destruct rest as [|f [|a rest]]; nums. destruct (key_arg fs rest) as [k|] eqn:K; [|discriminate]. destruct (format_arg f) as [g|] eqn:F; nums.
      apply (as_from w fs f g a rest); [now apply format_spec|]. now apply key_spec. }
    word E. { destruct rest as [|f [|a [|]]]; nums. destruct (format_arg f) as [g|] eqn:F; cbn [option_map] in H; nums. constructor. now apply format_spec. }
    discriminate.
  - intros H. destruct H; repeat match goal with N : number _ _ _ |- _ => apply number_spec in N end; cbn [state_argv app]; known; try reflexivity.
    all: try solve [repeat match goal with N : _ = Ok _ |- _ => rewrite N; clear N end; reflexivity].
    + apply key_spec in H1. rewrite H1. cbn [option_map bind]. rewrite H0. cbn [bind]. rewrite H. reflexivity.
    + destruct (str_eqb f (lit "None")) eqn:E; [apply str_eqb_eq in E; contradiction|]. rewrite H0. reflexivity.
    + apply key_spec in H0. apply format_spec in H. rewrite H0, H. reflexivity.
    + apply format_spec in H. rewrite H. reflexivity.
Qed.

Lemma format_shape s : format_arg s <> None <-> exists f, format_word s f.
Proof.
  split.
  - intros H. destruct (format_arg s) as [f|] eqn:E; [|now elim H]. exists f. now apply format_spec.
  - intros (f & H). apply format_spec in H. rewrite H. discriminate.
Qed.

Local Ltac arity := let I := fresh in intros I; unfold arities in I; cbn [In] in I;
  repeat match goal with H : _ \/ _ |- _ => destruct H as [H|H] end; try contradiction; try discriminate.

(** Whether the words are understood *)
Theorem argv_shape w fs args : (exists file words, args = file :: words /\ state_argv w fs words <> None) <-> shaped args.
Proof.
  split.
  - intros (file & words & -> & H). destruct words as [|c rest]; [now elim H|]. exists file, c, rest. split; [reflexivity|]. cbn [state_argv] in H.
    Local Ltac word' E := match goal with
      | H : (if str_eqb ?c ?l then _ else _) <> _ |- _ => destruct (str_eqb c l) eqn:E; [apply str_eqb_eq in E; subst c|clear E]
      end.
    Local Ltac here := split; [cbn; tauto|intros [X|X]; discriminate X].
    word' E. { destruct rest; [|now elim H]. here. }
    word' E. { destruct rest; [|now elim H]. here. }
    word' E. { destruct rest; [|now elim H]. here. }
    word' E. { destruct rest as [|n [|]]; try now elim H. here. }
    word' E. { destruct rest as [|n [|]]; try now elim H. here. }
    word' E. { destruct rest as [|n [|a [|]]]; try now elim H. here. }
    word' E. { destruct rest as [|n [|a [|]]]; try now elim H. here. }
    word' E. { destruct rest as [|n [|a [|]]]; try now elim H. here. }
    word' E. { destruct rest as [|n [|]]; try now elim H. here. }
    word' E. { destruct rest as [|n [|a [|]]]; try now elim H. here. }
    word' E. { destruct rest as [|n [|]]; try now elim H. here. }
    word' E. { destruct rest as [|n [|a [|m [|]]]]; try now elim H. here. }
    word' E. { destruct rest as [|n [|a rest]]; try now elim H. destruct rest as [|x [|]]; try now elim H. all: here. }
    word' E. { destruct rest as [|n [|a rest]]; try now elim H.
      assert (format_arg n <> None) as F by (intros F; rewrite F in H; apply H; now destruct (key_arg fs rest)). apply format_shape in F as (f & F).
      destruct rest as [|x [|]]; try (cbn [key_arg] in H; now elim H). all: split; [cbn; tauto|]; intros _; eauto. }
    word' E. { destruct rest as [|n [|a [|]]]; try now elim H.
      assert (format_arg n <> None) as F by (intros F; rewrite F in H; now apply H). apply format_shape in F as (f & F). split; [cbn; tauto|]. intros _. eauto. }
    now elim H.
  - intros (file & c & rest & -> & I & F). exists file, (c :: rest). split; [reflexivity|].
    unfold arities in I. cbn [In] in I. repeat match goal with H : _ \/ _ |- _ => destruct H as [H|H] end; try contradiction; injection I as <- L.
    Local Ltac lens L rest := repeat match type of L with _ = List.length ?r => destruct r as [|? ?]; cbn [List.length] in L; try discriminate L; try injection L as L end.
    all: try (clear F; lens L rest; cbn [state_argv key_arg option_map]; known; discriminate).
    + destruct (F (or_introl eq_refl)) as (fw & f & r & -> & W). apply format_spec in W. cbn [List.length] in L. injection L as L. lens L r. cbn [state_argv key_arg]. known. rewrite W. discriminate.
    + destruct (F (or_introl eq_refl)) as (fw & f & r & -> & W). apply format_spec in W. cbn [List.length] in L. injection L as L. lens L r. cbn [state_argv key_arg]. known. rewrite W. discriminate.
    + destruct (F (or_intror eq_refl)) as (fw & f & r & -> & W). apply format_spec in W. cbn [List.length] in L. injection L as L. lens L r. cbn [state_argv]. known. rewrite W. discriminate.
Qed.

Theorem program_usage w py b k fs args : state_program w py b k fs args = P_usage <-> ~ shaped args.
Proof.
  rewrite <- (argv_shape w fs). unfold state_program. destruct args as [|file words].
  - split; [intros _ (f & ws & E & _); discriminate|reflexivity].
  - destruct (state_argv w fs words) as [c|] eqn:E.
    + split; [|intros H; exfalso; apply H; exists file, words; rewrite E; split; [reflexivity|discriminate]].
      destruct (do cmd <- c; _) as [[j out]|]; discriminate.
    + split; [|reflexivity]. intros _ (f & ws & X & H). injection X as <- <-. now apply H.
Qed.

Theorem program_done w py b k fs args written out : state_program w py b k fs args = P_done written out <->
  exists file words cmd j j', args = file :: words /\ asks w fs words cmd
    /\ (cmd = S_create \/ (exists f a key, cmd = S_from f a key) \/ (exists f a, cmd = S_fromStart f a) \/ f_json fs file = Ok j)
    /\ state_py w py b k cmd j = Ok j' /\ written = Some (file, j')
    /\ (cmd = S_show -> exists c, cluster_of_json (load j) = Ok c /\ out = cluster_text c) /\ (cmd <> S_show -> out = []).
Proof.
  split.
  - intros H. destruct args as [|file words]; [discriminate|]. cbn [state_program] in H. destruct (state_argv w fs words) as [[cmd|e]|] eqn:E; try discriminate.
    apply argv_spec in E. cbn [bind] in H. destruct (if fresh cmd then Ok JNull else f_json fs file) as [j|] eqn:J; [|discriminate]. cbn [bind] in H.
    match type of H with context [bind ?m _] => destruct m as [o|] eqn:O; [|discriminate] end. cbn [bind] in H.
    destruct (state_py w py b k cmd j) as [j'|] eqn:P; [|discriminate]. cbn [bind] in H. injection H as <- <-.
    exists file, words, cmd, j, j'. split; [reflexivity|]. split; [exact E|]. split.
    { destruct cmd; cbn [fresh] in J; eauto 8. }
    split; [exact P|]. split; [reflexivity|]. split.
    + intros ->. apply bind_Ok in O as (c & C & O). apply Ok_inj in O. subst. eauto.
    + intros N. destruct cmd; try (now apply Ok_inj in O); now elim N.
  - intros (file & words & cmd & j & j' & -> & A & J & P & -> & O1 & O2). apply argv_spec in A. cbn [state_program]. rewrite A. cbn [bind].
    assert (exists j0, (if fresh cmd then Ok JNull else f_json fs file) = Ok j0 /\ state_py w py b k cmd j0 = Ok j' /\ (cmd = S_show -> j0 = j)) as (j0 & J0 & P0 & S0).
    { destruct J as [->|[(f & a & key & ->)|[(f & a & ->)|J]]].
      - exists JNull. split; [reflexivity|]. split; [exact P|discriminate].
      - exists JNull. split; [reflexivity|]. split; [exact P|discriminate].
      - exists JNull. split; [reflexivity|]. split; [exact P|discriminate].
      - destruct (fresh cmd) eqn:Fr; [|eauto]. exists JNull. split; [reflexivity|]. split; [destruct cmd; try discriminate Fr; exact P|intros ->; discriminate]. }
    rewrite J0. cbn [bind]. rewrite P0. destruct cmd; try (rewrite O2 by discriminate; reflexivity).
    destruct (O1 eq_refl) as (c & C & ->). rewrite (S0 eq_refl), C. reflexivity.
Qed.

(** What is written is a state again. *)
Lemma update_used w n key groups : forall c c', update_groups w n key groups c = Ok c' -> c_used c' = c_used c.
Proof.
  induction groups as [|g r IH]; intros c c' H; cbn [update_groups] in H; [apply Ok_inj in H; now subst|].
  apply bind_Ok in H as (old & _ & H). apply bind_Ok in H as (new & _ & H). apply bind_Ok in H as (c1 & C & H). apply IH in H. rewrite H.
  apply change_spec in C as (be & x & af & _ & _ & ->). reflexivity.
Qed.
Lemma written_state w py b k cmd j j' : state_py w py b k cmd j = Ok j' -> exists c, cluster_of_json (load j') = Ok c.
Proof.
  intros H. destruct (edit_cmd cmd) eqn:Ec; [apply (edit_spec w py b k cmd j j' Ec) in H as (c & c' & _ & _ & _ & R); eauto|].
  unfold state_py in H. apply bind_Ok in H as (c & H & E). apply Ok_inj in E. subst j'. exists c. apply cluster_file_roundtrip.
  destruct cmd; try discriminate Ec.
  - apply Ok_inj in H. subst c. apply wf_used_new.
  - apply bind_Ok in H as (c0 & R & H). unfold update_register in H. cbv zeta in H. apply bind_Ok in H as (c1 & C & H).
    destruct (snd _); [discriminate|]. apply Ok_inj in H. subst c1. apply update_used in C. rewrite C. now apply cluster_read_wf in R.
  - apply bind_Ok in H as (rp & _ & H). unfold fromArbitraryReceipt in H.
    repeat match type of H with
    | (do _ <- _; _) = Ok _ => let x := fresh "x" in let X := fresh "X" in apply bind_Ok in H as (x & X & H)
    | (let _ := _ in _) = Ok _ => cbv zeta in H
    | (if ?x then _ else _) = Ok _ => destruct x; [|discriminate H]
    end. apply Ok_inj in H. subst c. cbn [c_used]. apply init_wf.
  - apply bind_Ok in H as (rp & _ & H). apply Ok_inj in H. subst c. apply init_wf.
Qed.

Theorem session_holds w py b k calls fs fs' : session w py b k calls fs fs' ->
  forall name c, holds fs name c -> exists c', holds fs' name c'.
Proof.
  induction 1 as [fs|args calls fs fs1 fs' A S IH]; intros name c H; [eauto|].
  destruct (state_program w py b k fs args) as [| |wr out] eqn:P; cbn [files_after] in A; [subst; eauto|subst; eauto|].
  apply program_done in P as (file & words & cmd & j & j' & -> & _ & _ & J & -> & _). destruct A as [A1 A2].
  destruct (str_eqb name file) eqn:E.
  - apply str_eqb_eq in E. subst file. destruct (written_state w py b k cmd j j' J) as (c1 & R). apply (IH name c1). exists j'. auto.
  - assert (name <> file) as N by (intros ->; rewrite str_eqb_refl in E; discriminate). destruct H as (j0 & H & R). apply (IH name c). exists j0. split; [|exact R].
    destruct (A2 _ N) as [-> _]. exact H.
Qed.

Theorem session_others w py b k calls fs fs' : session w py b k calls fs fs' ->
  forall name, ~ In name (map (hd []) (filter (fun args => match args with [] => false | _ => true end) calls)) ->
  f_json fs' name = f_json fs name /\ f_text fs' name = f_text fs name.
Proof.
  induction 1 as [fs|args calls fs fs1 fs' A S IH]; intros name N; [auto|].
  assert (f_json fs1 name = f_json fs name /\ f_text fs1 name = f_text fs name) as [E1 E2].
  { destruct (state_program w py b k fs args) as [| |wr out] eqn:P; cbn [files_after] in A; [now subst|now subst|].
    apply program_done in P as (file & words & cmd & j & j' & -> & _ & _ & _ & -> & _). destruct A as [_ A2]. apply A2. intros ->. apply N. cbn. now left. }
  rewrite <- E1, <- E2. apply IH. intros I. apply N. destruct args; cbn; auto.
Qed.

(** What is shown *)
Lemma field_inj name v v' : state_field name v = state_field name v' -> v = v'.
Proof. unfold state_field. intros H. apply app_inv_head in H. apply app_inv_head in H. now apply app_inv_head in H. Qed.
Lemma alike_text x y : text_or_none x = text_or_none y -> alike x y.
Proof. destruct x, y; cbn [text_or_none]; intros H; unfold alike; subst; auto. Qed.
Lemma lines_alike l : forall i l' u u', registers_lines i l ++ [u] = registers_lines i l' ++ [u'] ->
  hd_error u = Some 32 -> hd_error u' = Some 32 -> Forall2 shown_alike l l' /\ u = u'.
Proof.
  induction l as [|r l IH]; intros i l' u u' H U U'; destruct l' as [|r' l'].
  - cbn in H. injection H as ->. auto.
  - exfalso. cbn [registers_lines app] in H. injection H as -> _. discriminate U.
  - exfalso. cbn [registers_lines app] in H. injection H as <- _. discriminate U'.
  - cbn [registers_lines register_lines app] in H. injection H as H1 H2 H3 H4 H.
    apply IH in H as [F ->]; [|exact U|exact U']. split; [|reflexivity]. constructor; [|exact F].
    repeat split; [now apply alike_text|now apply alike_text|now apply fmt_d_inj|].
    destruct (s_restore r), (s_restore r'); try reflexivity; discriminate H4.
Qed.

Lemma field_line name v : ~ In c_nl name -> ~ In c_nl v -> ~ In c_nl (state_field name v).
Proof.
  unfold state_field. intros N V I. apply in_app_or in I as [I|I]; [apply repeat_spec in I; discriminate|].
  apply in_app_or in I as [I|I]; [tauto|]. apply in_app_or in I as [I|I]; [|tauto]. vm_compute in I. destruct I as [I|[I|[]]]; discriminate.
Qed.
Lemma fmt_d_line z : ~ In c_nl (fmt_d z).
Proof.
  assert (forall y, (0 <= y)%Z -> ~ In c_nl (fmt_d y)) as P.
  { intros y Y I. pose proof (proj1 (fmt_d_digits y Y)) as F. rewrite Forall_forall in F. apply F in I. unfold c_nl in I. lia. }
  destruct (Z.ltb_spec z 0) as [L|L]; [|now apply P]. intros I. assert (fmt_d z = c_dash :: fmt_d (- z)) as E.
  { unfold fmt_d, fmt_base. replace (z <? 0)%Z with true by lia. replace (- z <? 0)%Z with false by lia. f_equal. f_equal. lia. }
  rewrite E in I. destruct I as [I|I]; [discriminate|]. apply P in I; [exact I|lia].
Qed.
Lemma text_line x : one_line x -> ~ In c_nl (text_or_none x).
Proof. destruct x as [s|]; cbn [text_or_none]; intros H; [now apply H|]. vm_compute. intuition discriminate. Qed.
Local Ltac plain := vm_compute; intuition discriminate.
Lemma registers_lined l : forall i, Forall (fun r => one_line (s_start r) /\ one_line (s_last r)) l -> Forall (fun x => ~ In c_nl x) (registers_lines i l).
Proof.
  induction l as [|r l IH]; intros i H; [constructor|]. inversion H as [|? ? [H1 H2] H3]; subst. cbn [registers_lines register_lines app].
  constructor. { intros I. apply in_app_or in I as [I|I]; [revert I; plain|]. apply in_app_or in I as [I|I]; [now apply fmt_d_line in I|revert I; plain]. }
  constructor; [apply field_line; [plain|now apply text_line]|].
  constructor; [apply field_line; [plain|now apply text_line]|].
  constructor; [apply field_line; [plain|apply fmt_d_line]|].
  constructor; [apply field_line; [plain|destruct (s_restore r); plain]|].
  constructor; [intros []|]. now apply IH.
Qed.
Lemma cluster_lined c : lined c -> Forall (fun x => ~ In c_nl x) (cluster_lines c).
Proof.
  intros L. apply Forall_app. split; [now apply registers_lined|]. constructor; [|constructor]. apply field_line; [plain|]. destruct (backend_of _); plain.
Qed.
Lemma text_lines ls ls' : Forall (fun x => ~ In c_nl x) ls -> Forall (fun x => ~ In c_nl x) ls' ->
  List.concat (map (fun l => l ++ [c_nl]) ls) = List.concat (map (fun l => l ++ [c_nl]) ls') -> ls = ls'.
Proof.
  intros L L' H. apply (f_equal file_lines) in H. rewrite (lines_table ls L), (lines_table ls' L') in H. clear L L'.
  revert ls' H. induction ls as [|x ls IH]; intros [|y ls'] H; try discriminate; [reflexivity|]. cbn [map] in H. injection H as H1 H2.
  apply app_inj_tail in H1 as [-> _]. f_equal. now apply IH.
Qed.
Lemma text_alike c c' : lined c -> lined c' -> cluster_text c = cluster_text c' -> Forall2 shown_alike (c_regs c) (c_regs c') /\ backend_of (c_used c) = backend_of (c_used c').
Proof.
  intros L L' H. apply text_lines in H; [|now apply cluster_lined|now apply cluster_lined]. unfold cluster_lines in H.
  apply lines_alike in H as [F E]; [|reflexivity|reflexivity]. split; [exact F|]. apply field_inj in E. destruct (backend_of (c_used c)), (backend_of (c_used c')); try reflexivity; discriminate E.
Qed.

Theorem shown_spec w py b k fs file c : holds fs file c ->
  exists out, state_program w py b k fs [file; lit "show"] = P_done (Some (file, cluster_to_json c)) out /\ out = cluster_text c.
Proof.
  intros (j & J & R). exists (cluster_text c). split; [|reflexivity]. apply program_done. exists file, [lit "show"], S_show, j, (cluster_to_json c).
  split; [reflexivity|]. split; [constructor|]. split; [auto|]. split; [unfold state_py; rewrite R; reflexivity|]. split; [reflexivity|]. split; [intros _; eauto|]. intros N. now elim N.
Qed.
Theorem shown_same w py b k fs file c fs2 file2 c2 out wr wr2 : holds fs file c -> holds fs2 file2 c2 -> lined c -> lined c2 ->
  state_program w py b k fs [file; lit "show"] = P_done wr out -> state_program w py b k fs2 [file2; lit "show"] = P_done wr2 out ->
  Forall2 shown_alike (c_regs c) (c_regs c2) /\ backend_of (c_used c) = backend_of (c_used c2).
Proof.
  intros H H2 L L2 P P2. destruct (shown_spec w py b k fs file c H) as (o & E & ->). destruct (shown_spec w py b k fs2 file2 c2 H2) as (o & E2 & ->).
  rewrite E in P. rewrite E2 in P2. injection P as _ <-. injection P2 as _ P2. apply text_alike; auto.
Qed.

(** show tells of each register under its number. *)
Lemma field_named name value : named name value (state_field name value).
Proof. exists (repeat 32%N (25 - List.length name)). split; [|reflexivity]. apply Forall_forall. intros x H. now apply repeat_spec in H. Qed.
Lemma registers_told l : forall i n r, nth_error l n = Some r ->
  exists tail, skipn (6 * n) (registers_lines i l) = (lit "Cash Register " ++ fmt_d (i + Z.of_nat n) ++ lit ":") :: register_lines r ++ [] :: tail.
Proof.
  induction l as [|r0 l IH]; intros i n r H; destruct n as [|n]; try discriminate H.
  - injection H as ->. replace (i + Z.of_nat 0)%Z with i by lia. eexists. reflexivity.
  - cbn [nth_error] in H. destruct (IH (i + 1)%Z n r H) as [tail E]. exists tail.
    replace (i + Z.of_nat (S n))%Z with (i + 1 + Z.of_nat n)%Z by lia. rewrite <- E.
    replace (6 * S n)%nat with (6 + 6 * n)%nat by lia. reflexivity.
Qed.
Lemma registers_count l : forall i, List.length (registers_lines i l) = (6 * List.length l)%nat.
Proof. induction l as [|r l IH]; intros i; [reflexivity|]. cbn [registers_lines register_lines app List.length]. rewrite IH. lia. Qed.
Theorem shown_told w py b k fs file c : holds fs file c ->
  exists lines last, state_program w py b k fs [file; lit "show"] = P_done (Some (file, cluster_to_json c)) (List.concat (map (fun l => l ++ [c_nl]) (lines ++ [last])))
    /\ List.length lines = (6 * List.length (c_regs c))%nat /\ (forall n r, nth_error (c_regs c) n = Some r -> told lines n r)
    /\ named (lit "Used Receipt IDs Backend") (match backend_of (c_used c) with B_unique => lit "USED_RECEIPT_IDS_UNIQUE" | B_natural => lit "USED_RECEIPT_IDS_SORTED_NATURAL" end) last.
Proof.
  intros H. destruct (shown_spec w py b k fs file c H) as (o & E & ->). eexists (registers_lines 0 (c_regs c)), _. split; [exact E|].
  split; [apply registers_count|]. split.
  - intros n r N. destruct (registers_told _ 0%Z n r N) as [tail T]. unfold told. rewrite T.
    do 4 eexists. split; [reflexivity|]. repeat split; apply field_named.
  - destruct (backend_of (c_used c)); apply field_named.
Qed.
