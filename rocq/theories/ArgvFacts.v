(** Facts about the command line of verify.py. *)
From Coq Require Import Lia.
From Verif Require Import PyBase World Codec Json ListFacts KeyStore State Verify Cli SpecCli SpecState SpecKeys CliFacts Argv SpecArgv.
Open Scope N_scope.

Lemma outside_false lo hi args : outside lo hi args = false <-> (lo <= List.length args <= hi)%nat.
Proof. unfold outside. rewrite Bool.orb_false_iff, !Nat.ltb_ge. lia. Qed.

Lemma number_run w name d args k a s f : number_option w name d args k = V_run a s f <->
  exists z words rest, option_words w name d z words /\ args = words ++ rest /\ (words = [] -> rest <> [] /\ ~ first_is (eq name) rest) /\ k z rest = V_run a s f.
Proof.
  unfold number_option. split.
  - destruct args as [|x r]; [discriminate|]. destruct (str_eqb x name) eqn:X.
    + apply str_eqb_eq in X as ->. destruct r as [|y r]; [discriminate|]. destruct (py_int w 10 y) as [z|] eqn:Z; [|discriminate].
      intros E. exists z, [name; y], r. split; [now constructor|]. split; [reflexivity|]. split; [discriminate|exact E].
    + intros E. exists d, [], (x :: r). split; [constructor|]. split; [reflexivity|]. split; [|exact E]. intros _. split; [discriminate|].
      intros (y & t & K & H). injection K as <- _. rewrite H, str_eqb_refl in X. discriminate X.
  - intros (z & words & rest & O & -> & F & E). destruct O as [|t z Z].
    + destruct (F eq_refl) as (N & G). cbn [app]. destruct rest as [|x r]; [now destruct N|].
      destruct (str_eqb x name) eqn:X; [|exact E]. exfalso. apply G. exists x, r. split; [reflexivity|]. symmetry. now apply str_eqb_eq.
    + cbn [app]. rewrite str_eqb_refl. unfold number in Z. now rewrite Z.
Qed.
Lemma option_length w name d z l : option_words w name d z l -> (List.length l <= 2)%nat.
Proof. destruct 1; cbn; lia. Qed.

Lemma files_run a args a' s f : verify_files a args = V_run a' s f <->
  a' = a /\ exists js, json_words js /\ args = js ++ [s; f] /\ (js = [] -> s <> lit "json").
Proof.
  unfold verify_files. split.
  - destruct args as [|x r]; [discriminate|]. destruct (str_eqb x (lit "json")) eqn:X.
    + apply str_eqb_eq in X as ->. destruct r as [|y [|z [|]]]; try discriminate. intros E. injection E as <- <- <-. split; [reflexivity|].
      exists [lit "json"]. split; [constructor|]. split; [reflexivity|discriminate].
    + destruct r as [|y [|]]; try discriminate. intros E. injection E as <- <- <-. split; [reflexivity|].
      exists []. split; [constructor|]. split; [reflexivity|]. intros _ ->. now rewrite str_eqb_refl in X.
  - intros (-> & js & J & -> & N). destruct J.
    + cbn [app]. destruct (str_eqb s (lit "json")) eqn:X; [|reflexivity]. exfalso. apply (N eq_refl). now apply str_eqb_eq.
    + reflexivity.
Qed.

Lemma default_spec w env d : depParserChunkSize w env = Ok d <-> default_size w env d.
Proof.
  unfold depParserChunkSize, default_size, number. destruct env as [s|].
  - destruct (py_int w 10 s); split; intros E; try discriminate E; injection E as ->; reflexivity.
  - split; [intros E; now injection E|intros ->; reflexivity].
Qed.

(** The part after the register *)
Definition rest_argv (w : world) (env : option str) (state : bool) (register : register_arg) (args : list str) : v_call :=
  if outside 2 7 args then V_usage else
  number_option w (lit "par") 1 args (fun par args =>
    if (par <? 1)%Z then V_usage else
    if outside 2 5 args then V_usage else
    match depParserChunkSize w env with
    | Err e => V_raised e
    | Ok default =>
        number_option w (lit "chunksize") default args (fun size args =>
          if (size <? 0)%Z then V_usage else
          if outside 2 3 args then V_usage else
          verify_files (VerifyArgs state register (Z.to_nat par) (Z.to_nat size)) args)
    end).
Lemma rest_run w env st reg args a s f : rest_argv w env st reg args = V_run a s f <->
  va_state a = st /\ va_register a = reg /\ exists d p c pa ch js,
    default_size w env d /\ option_words w (lit "par") 1 p pa /\ (1 <= p)%Z /\ va_par a = Z.to_nat p
    /\ option_words w (lit "chunksize") d c ch /\ (0 <= c)%Z /\ va_chunksize a = Z.to_nat c /\ json_words js
    /\ args = pa ++ ch ++ js ++ [s; f]
    /\ (pa = [] -> ~ first_is (eq (lit "par")) (ch ++ js ++ [s; f]))
    /\ (ch = [] -> ~ first_is (eq (lit "chunksize")) (js ++ [s; f]))
    /\ (js = [] -> s <> lit "json").
Proof.
  unfold rest_argv. split.
  - destruct (outside 2 7 args); [discriminate|]. intros E. apply number_run in E as (p & pa & r & Op & -> & Fp & E).
    destruct (p <? 1)%Z eqn:P; [discriminate E|]. apply Z.ltb_ge in P. destruct (outside 2 5 r); [discriminate E|].
    destruct (depParserChunkSize w env) as [d|] eqn:D; [|discriminate E]. apply default_spec in D.
    apply number_run in E as (c & ch & r' & Oc & -> & Fc & E). destruct (c <? 0)%Z eqn:C; [discriminate E|]. apply Z.ltb_ge in C.
    destruct (outside 2 3 r'); [discriminate E|]. apply files_run in E as (-> & js & J & -> & Nj).
    split; [reflexivity|]. split; [reflexivity|]. exists d, p, c, pa, ch, js. cbn [va_par va_chunksize].
    split; [exact D|]. split; [exact Op|]. split; [exact P|]. split; [reflexivity|]. split; [exact Oc|]. split; [exact C|]. split; [reflexivity|].
    split; [exact J|]. split; [reflexivity|]. split; [intros X; exact (proj2 (Fp X))|]. split; [intros X; exact (proj2 (Fc X))|exact Nj].
  - intros (S & R & d & p & c & pa & ch & js & D & Op & P & Pa & Oc & C & Ca & J & -> & Fp & Fc & Fj).
    pose proof (option_length _ _ _ _ _ Op) as Lp. pose proof (option_length _ _ _ _ _ Oc) as Lc.
    assert (List.length js <= 1)%nat as Lj by (destruct J; cbn; lia).
    assert (L3 : List.length (js ++ [s; f]) = (List.length js + 2)%nat) by (now rewrite app_length).
    assert (L2 : List.length (ch ++ js ++ [s; f]) = (List.length ch + (List.length js + 2))%nat) by (now rewrite app_length, L3).
    assert (L1 : List.length (pa ++ ch ++ js ++ [s; f]) = (List.length pa + (List.length ch + (List.length js + 2)))%nat) by (now rewrite app_length, L2).
    rewrite (proj2 (outside_false 2 7 _)) by lia. apply number_run. exists p, pa, (ch ++ js ++ [s; f]). split; [exact Op|]. split; [reflexivity|].
    split. { intros X. split; [|exact (Fp X)]. intros Y. apply (f_equal (@List.length str)) in Y. rewrite L2 in Y. cbn in Y. lia. }
    rewrite (proj2 (Z.ltb_ge p 1) P). rewrite (proj2 (outside_false 2 5 _)) by lia. apply default_spec in D. rewrite D.
    apply number_run. exists c, ch, (js ++ [s; f]). split; [exact Oc|]. split; [reflexivity|].
    split. { intros X. split; [|exact (Fc X)]. intros Y. apply (f_equal (@List.length str)) in Y. rewrite L3 in Y. cbn in Y. lia. }
    rewrite (proj2 (Z.ltb_ge c 0) C). rewrite (proj2 (outside_false 2 3 _)) by lia. apply files_run.
    split; [|now exists js]. destruct a as [a1 a2 a3 a4]. cbn [va_state va_register va_par va_chunksize] in *. now subst.
Qed.

Lemma argv_rest w env args : verify_argv w env args =
  if outside 1 9 args then V_usage else
  let (state, args) := match args with a :: r => if str_eqb a (lit "state") then (true, r) else (false, args) | [] => (false, args) end in
  match args with
  | [] => if state then V_new else V_raised PyIndexError
  | a :: r => let (register, args) :=
        if str_eqb a (lit "continue") then (A_continue, r) else match py_int w 10 a with Some i => (A_index i, r) | None => (A_none, args) end in
      rest_argv w env state register args
  end.
Proof. reflexivity. Qed.

Theorem command_iff w env args a s f : verify_argv w env args = V_run a s f <-> understood w env args a s f.
Proof.
  rewrite argv_rest. split.
  - destruct (outside 1 9 args) eqn:O; [discriminate|].
    assert (Go : forall (st : bool) (args' : list str), match args' with
        | [] => if st then V_new else V_raised PyIndexError
        | a :: r => let (register, args) := if str_eqb a (lit "continue") then (A_continue, r) else match py_int w 10 a with Some i => (A_index i, r) | None => (A_none, args') end in
            rest_argv w env st register args end = V_run a s f ->
        exists d p c rg pa ch js, default_size w env d /\ va_state a = st /\ register_words w (va_register a) rg
          /\ option_words w (lit "par") 1 p pa /\ (1 <= p)%Z /\ va_par a = Z.to_nat p
          /\ option_words w (lit "chunksize") d c ch /\ (0 <= c)%Z /\ va_chunksize a = Z.to_nat c /\ json_words js
          /\ args' = rg ++ pa ++ ch ++ js ++ [s; f]
          /\ (rg = [] -> ~ first_is (fun x => x = lit "continue" \/ exists i, number w x i) (pa ++ ch ++ js ++ [s; f]))
          /\ (pa = [] -> ~ first_is (eq (lit "par")) (ch ++ js ++ [s; f]))
          /\ (ch = [] -> ~ first_is (eq (lit "chunksize")) (js ++ [s; f]))
          /\ (js = [] -> s <> lit "json")).
    { intros st [|x r] E; [destruct st; discriminate E|].
      assert (exists reg rg rest, register_words w reg rg /\ x :: r = rg ++ rest /\ rest_argv w env st reg rest = V_run a s f
        /\ (rg = [] -> ~ first_is (fun x => x = lit "continue" \/ exists i, number w x i) rest)) as (reg & rg & rest & Rw & Er & E' & F).
      { destruct (str_eqb x (lit "continue")) eqn:X.
        - apply str_eqb_eq in X as ->. exists A_continue, [lit "continue"], r. split; [constructor|]. split; [reflexivity|]. split; [exact E|discriminate].
        - destruct (py_int w 10 x) as [i|] eqn:I.
          + exists (A_index i), [x], r. split; [constructor; [exact I|intros ->; now rewrite str_eqb_refl in X]|]. split; [reflexivity|]. split; [exact E|discriminate].
          + exists A_none, [], (x :: r). split; [constructor|]. split; [reflexivity|]. split; [exact E|].
            intros _ (y & t & K & H). injection K as <- _. destruct H as [->|(i & H)]; [now rewrite str_eqb_refl in X|]. unfold number in H. congruence. }
      apply rest_run in E' as (S & R & d & p & c & pa & ch & js & D & Op & P & Pa & Oc & C & Ca & J & -> & Fp & Fc & Fj).
      exists d, p, c, rg, pa, ch, js. rewrite R. repeat (split; [assumption|]). assumption. }
    intros E. destruct args as [|x r]; [discriminate E|]. destruct (str_eqb x (lit "state")) eqn:X.
    + apply str_eqb_eq in X as ->. destruct (Go true r E) as (d & p & c & rg & pa & ch & js & D & S & R & Op & P & Pa & Oc & C & Ca & J & -> & Fr & Fp & Fc & Fj).
      exists [lit "state"], rg, pa, ch, js. split; [exists d, p, c; rewrite S; repeat (split; [assumption || constructor|]); assumption|].
      split; [reflexivity|]. split; [discriminate|]. auto.
    + destruct (Go false (x :: r) E) as (d & p & c & rg & pa & ch & js & D & S & R & Op & P & Pa & Oc & C & Ca & J & Ea & Fr & Fp & Fc & Fj).
      exists [], rg, pa, ch, js. split; [exists d, p, c; rewrite S; repeat (split; [assumption || constructor|]); assumption|].
      split; [exact Ea|]. split; [|auto]. intros _ (y & t & K & H). rewrite <- Ea in K. injection K as <- _. rewrite <- H, str_eqb_refl in X. discriminate X.
  - intros (st & rg & pa & ch & js & (d & p & c & D & Sw & Rw & Op & P & Pa & Oc & C & Ca & J) & -> & Fs & Fr & Fp & Fc & Fj).
    set (rest := pa ++ ch ++ js ++ [s; f]) in *.
    assert (Lr : (2 <= List.length rest <= 7)%nat).
    { unfold rest. rewrite !app_length. pose proof (option_length _ _ _ _ _ Op). pose proof (option_length _ _ _ _ _ Oc).
      assert (List.length js <= 1)%nat by (destruct J; cbn; lia). cbn [List.length]. lia. }
    assert (Lg : (List.length rg <= 1)%nat) by (destruct Rw; cbn; lia). assert (Ls : (List.length st <= 1)%nat) by (destruct Sw; cbn; lia).
    rewrite (proj2 (outside_false 1 9 _)) by (rewrite !app_length; lia).
    assert (Run : rest_argv w env (va_state a) (va_register a) rest = V_run a s f).
    { apply rest_run. split; [reflexivity|]. split; [reflexivity|]. exists d, p, c, pa, ch, js. repeat (split; [assumption || reflexivity|]). assumption. }
    assert (Ne : rest <> []) by (intros X; rewrite X in Lr; cbn in Lr; lia).
    assert (Reg : match rg ++ rest with
        | [] => if va_state a then V_new else V_raised PyIndexError
        | x :: r => let (register, args) := if str_eqb x (lit "continue") then (A_continue, r) else match py_int w 10 x with Some i => (A_index i, r) | None => (A_none, rg ++ rest) end in
            rest_argv w env (va_state a) register args end = V_run a s f).
    { destruct Rw as [| |t i Hn Hc].
      - cbn [app]. destruct rest as [|x r]; [now destruct Ne|]. destruct (str_eqb x (lit "continue")) eqn:X.
        { exfalso. apply (Fr eq_refl). exists x, r. split; [reflexivity|]. left. now apply str_eqb_eq. }
        destruct (py_int w 10 x) as [i|] eqn:I; [|exact Run]. exfalso. apply (Fr eq_refl). exists x, r. split; [reflexivity|]. right. now exists i.
      - cbn [app]. rewrite str_eqb_refl. exact Run.
      - cbn [app]. destruct (str_eqb t (lit "continue")) eqn:X; [apply str_eqb_eq in X; now destruct (Hc X)|]. unfold number in Hn. rewrite Hn. exact Run. }
    destruct Sw.
    + cbn [app]. destruct (rg ++ rest) as [|x r] eqn:Er; [destruct rg; [now destruct Ne|discriminate Er]|].
      destruct (str_eqb x (lit "state")) eqn:X; [|exact Reg]. exfalso. apply (Fs eq_refl). exists x, r. split; [reflexivity|]. symmetry. now apply str_eqb_eq.
    + cbn [app]. rewrite str_eqb_refl. exact Reg.
Qed.

(** Nothing else happens: the arguments are wrong, ask for a new state, or the
    environment variable is no number. *)
Theorem command_other w env args : verify_argv w env args = V_new <-> args = [lit "state"].
Proof.
  rewrite argv_rest. split.
  - destruct (outside 1 9 args); [discriminate|].
    assert (R : forall st reg l, rest_argv w env st reg l <> V_new).
    { intros st reg l. unfold rest_argv, number_option, verify_files. destruct (outside 2 7 l); [discriminate|].
      repeat match goal with
      | |- context[match ?x with _ => _ end] => destruct x; try discriminate
      end. }
    destruct args as [|x r]; [discriminate|]. destruct (str_eqb x (lit "state")) eqn:X.
    + destruct r as [|y r]; [apply str_eqb_eq in X as ->; reflexivity|].
      destruct (str_eqb y (lit "continue")); [intros E; now apply R in E|]. destruct (py_int w 10 y); intros E; now apply R in E.
    + destruct (str_eqb x (lit "continue")); [intros E; now apply R in E|]. destruct (py_int w 10 x); intros E; now apply R in E.
  - intros ->. reflexivity.
Qed.

Theorem command_raises w env args e : verify_argv w env args = V_raised e -> e = PyValueError /\ forall d, ~ default_size w env d.
Proof.
  rewrite argv_rest. destruct (outside 1 9 args) eqn:O; [discriminate|].
  assert (Two : forall lo hi l, outside (S lo) hi l = false -> l <> []). { intros lo hi [|] E; [apply outside_false in E; cbn in E; lia|discriminate]. }
  assert (Op : forall name d l k, (2 <= List.length l)%nat -> number_option w name d l k = V_raised e -> exists z l', k z l' = V_raised e).
  { intros name d [|x l] k L E; [cbn in L; lia|]. unfold number_option in E. destruct (str_eqb x name); [|now exists d, (x :: l)].
    destruct l as [|y l]; [cbn in L; lia|]. destruct (py_int w 10 y) as [z|]; [now exists z, l|discriminate E]. }
  assert (R : forall st reg l, rest_argv w env st reg l = V_raised e -> e = PyValueError /\ forall d, ~ default_size w env d).
  { intros st reg l E. unfold rest_argv in E. destruct (outside 2 7 l) eqn:O1; [discriminate E|]. apply outside_false in O1.
    apply Op in E as (p & l1 & E); [|lia]. destruct (p <? 1)%Z; [discriminate E|]. destruct (outside 2 5 l1) eqn:O2; [discriminate E|]. apply outside_false in O2.
    destruct (depParserChunkSize w env) as [d|x] eqn:D.
    - exfalso. apply Op in E as (c & l2 & E); [|lia]. destruct (c <? 0)%Z; [discriminate E|]. destruct (outside 2 3 l2) eqn:O3; [discriminate E|]. apply outside_false in O3.
      unfold verify_files in E. destruct l2 as [|x l2]; [cbn in O3; lia|]. destruct (if str_eqb x (lit "json") then l2 else x :: l2) as [|? [|? [|]]]; discriminate E.
    - injection E as ->. split.
      + unfold depParserChunkSize in D. destruct env as [t|]; [|discriminate D]. destruct (py_int w 10 t); [discriminate D|]. now injection D.
      + intros d H. apply default_spec in H. congruence. }
  destruct args as [|x r]; [intros _; now destruct (Two 0%nat 9%nat [] O)|]. destruct (str_eqb x (lit "state")) eqn:X.
  - destruct r as [|y r]; [discriminate|]. destruct (str_eqb y (lit "continue")); [apply R|]. destruct (py_int w 10 y); apply R.
  - destruct (str_eqb x (lit "continue")); [apply R|]. destruct (py_int w 10 x); apply R.
Qed.

Lemma no_number w : forall x, In x [lit "par"; lit "chunksize"; lit "json"] -> x <> lit "continue" /\ x <> lit "state" /\ forall i, ~ number w x i.
Proof. intros x H. unfold number. repeat (destruct H as [<-|H]; [split; [discriminate|split; [discriminate|intros i E; vm_compute in E; discriminate E]]|]). destruct H. Qed.

Theorem documented_runs w env args a s f : documented w env args a s f -> plain_name w s -> verify_argv w env args = V_run a s f.
Proof.
  intros (st & rg & pa & ch & js & P & -> & Do) (Ns & Nn). apply command_iff. exists st, rg, pa, ch, js. split; [exact P|]. split; [reflexivity|].
  destruct P as (d & p & c & D & Sw & Rw & Op & _ & _ & Oc & _ & _ & J). cbn [In] in Ns.
  assert (Hj : forall x r, js ++ [s; f] = x :: r -> x = s \/ x = lit "json").
  { intros x r E. destruct J; cbn [app] in E; injection E as <- _; auto. }
  assert (Hc : forall x r, ch ++ js ++ [s; f] = x :: r -> x = s \/ In x [lit "chunksize"; lit "json"]).
  { intros x r E. destruct Oc; cbn [app] in E; [destruct (Hj _ _ E) as [ ->| ->]; cbn [In]; auto|]. injection E as <- _. cbn [In]. auto. }
  assert (Hp : forall x r, pa ++ ch ++ js ++ [s; f] = x :: r -> x = s \/ In x [lit "par"; lit "chunksize"; lit "json"]).
  { intros x r E. destruct Op; cbn [app] in E; [destruct (Hc _ _ E) as [ ->|H]; cbn [In] in *; tauto|]. injection E as <- _. cbn [In]. auto. }
  split.
  { intros -> (x & r & E & <-). assert (va_register a = A_none) as R by (apply Do; now inversion Sw). rewrite R in Rw. inversion Rw; subst rg. cbn [app] in E.
    destruct (Hp _ _ E) as [<-|H]; [tauto|]. destruct (no_number w _ H) as (_ & H' & _). now apply H'. }
  split.
  { intros _ (x & r & E & H). destruct (Hp _ _ E) as [->|Hx].
    - destruct H as [->|(i & H)]; [tauto|exact (Nn i H)].
    - destruct (no_number w _ Hx) as (H1 & _ & H2). destruct H as [H|(i & H)]; [exact (H1 H)|exact (H2 i H)]. }
  split.
  { intros _ (x & r & E & <-). destruct (Hc _ _ E) as [<-|H]; [tauto|]. cbn [In] in H. intuition discriminate. }
  split.
  { intros _ (x & r & E & <-). destruct (Hj _ _ E) as [<-|H]; [tauto|discriminate H]. }
  intros _ ->. tauto.
Qed.

Lemma understood_legal w env args a s f : understood w env args a s f -> legal_args a.
Proof. intros (? & ? & ? & ? & ? & (d & p & c & _ & _ & _ & _ & P & E & _) & _). unfold legal_args. rewrite E. lia. Qed.

Theorem program_success w b pick env read stdin args : hash_ok w -> (forall i, stdin = Ok i -> usual_state i) ->
  (forall n d, read n = Ok d -> regular_file w d \/ forall a s, ~ understood w env args a s n) ->
  forall out, (exists st, verify_program w b pick env read stdin args = VEnd out true st) <->
    exists a s f, understood w env args a s f /\ accepted_files w b read stdin a s f out.
Proof.
  intros Hh Us Rf out. unfold verify_program. split.
  - intros (st & E). destruct (verify_argv w env args) as [| | |a s f] eqn:V; try discriminate E. apply command_iff in V.
    exists a, s, f. split; [exact V|]. destruct (read s) as [sd|] eqn:Es; cbn [bind] in E; [|discriminate E].
    destruct (if va_state a then stdin else Ok JNull) as [i|] eqn:Ei; cbn [bind] in E; [|discriminate E]. destruct (read f) as [fd|] eqn:Ef; cbn [bind] in E; [|discriminate E].
    destruct (verify_py w b pick a sd i fd) as [o|] eqn:Ev; [|discriminate E]. injection E as -> _.
    assert (regular_file w fd) as Rg by (destruct (Rf f fd Ef) as [H|H]; [exact H|now destruct (H a s)]).
    assert (usual_state i) as Ui.
    { destruct (va_state a); [exact (Us i Ei)|]. injection Ei as <-. intros c Hc. discriminate Hc. }
    apply (verify_py_exact w b pick a sd i fd out Hh (understood_legal _ _ _ _ _ _ V) Ui Rg) in Ev as (key & ks & c & idx & c' & H).
    exists sd, fd, i, key, ks, c, idx, c'. split; [exact Es|]. split; [exact Ef|]. split; [|exact H]. intros T. rewrite T in Ei. exact Ei.
  - intros (a & s & f & V & sd & fd & i0 & key & ks & c & idx & c' & Es & Ef & Ei & Hk & Hks & St & Ch & Hv & Ho).
    pose proof V as V'. apply command_iff in V'. rewrite V'. rewrite Es. cbn [bind].
    set (i := if va_state a then i0 else JNull).
    assert ((if va_state a then stdin else Ok JNull) = Ok i) as ->. { unfold i. destruct (va_state a); [now apply Ei|reflexivity]. }
    cbn [bind]. rewrite Ef. cbn [bind].
    assert (regular_file w fd) as Rg by (destruct (Rf f fd Ef) as [H|H]; [exact H|now destruct (H a s)]).
    assert (usual_state i) as Ui.
    { unfold i. destruct (va_state a) eqn:T; [exact (Us i0 (Ei eq_refl))|]. intros c0 Hc. discriminate Hc. }
    assert (verify_py w b pick a sd i fd = Ok out) as ->.
    { apply (verify_py_exact w b pick a sd i fd out Hh (understood_legal _ _ _ _ _ _ V) Ui Rg). exists key, ks, c, idx, c'.
      split; [exact Hk|]. split; [exact Hks|]. split; [|split; [exact Ch|split; [exact Hv|exact Ho]]].
      unfold i. split; [intros T; rewrite T; exact (proj1 St T)|exact (proj2 St)]. }
    now exists 0.
Qed.

Theorem command_usage w env args d : default_size w env d -> (forall a s f, ~ understood w env args a s f) -> args <> [lit "state"] -> verify_argv w env args = V_usage.
Proof.
  intros D Nu Nn. destruct (verify_argv w env args) as [| |e|a s f] eqn:V; [reflexivity|..]; exfalso.
  - now apply command_other in V.
  - apply command_raises in V as (_ & H). exact (H d D).
  - apply command_iff in V. exact (Nu _ _ _ V).
Qed.

Theorem program_status w b pick env read stdin args d : default_size w env d -> args <> [lit "state"] ->
  (ve_status (verify_program w b pick env read stdin args) = 0 <->
   ve_success (verify_program w b pick env read stdin args) = true \/ forall a s f, ~ understood w env args a s f).
Proof.
  intros D Nn. unfold verify_program. destruct (verify_argv w env args) as [| |e|a s f] eqn:V.
  - cbn [ve_status ve_success]. split; [|reflexivity]. intros _. right. intros a s f U. apply command_iff in U. congruence.
  - now apply command_other in V.
  - exfalso. apply command_raises in V as (_ & H). exact (H d D).
  - apply command_iff in V. match goal with |- context[match ?x with _ => _ end] => destruct x end; cbn [ve_status ve_success].
    + split; [now left|reflexivity].
    + split; [discriminate|]. intros [H|H]; [discriminate H|now destruct (H a s f)].
Qed.
