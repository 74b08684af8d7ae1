(** Proofs about natural order and time. *)
From Coq Require Import Lia.
From Verif Require Import PyBase World Regex Codec PyTime ListFacts IntFacts Receipt State SpecDep SpecCluster SpecKeys SpecNatural.
Open Scope N_scope.
Open Scope py_scope.

Lemma earlier_iff a b : dt_ltb a b = true <-> earlier a b.
Proof.
  unfold dt_ltb, earlier, dt_fields. cbn [lex_ltb].
  repeat match goal with |- context[if ?x <? ?y then _ else if ?y <? ?x then _ else _] =>
    destruct (N.ltb_spec x y); [intuition lia|]; destruct (N.ltb_spec y x); [intuition lia|] end.
  intuition (discriminate || lia).
Qed.
Lemma not_before_iff a b : not_before a b <-> ~ earlier a b.
Proof. unfold not_before. rewrite <- earlier_iff, not_true_iff_false. reflexivity. Qed.

Lemma lex_iff a : forall b, lex_ltb a b = true <-> first_difference N.lt a b.
Proof.
  induction a as [|x a IH]; intros [|y b]; cbn [lex_ltb].
  - split; [discriminate|]. intros (p & [[<- (y & r & E)]|(x & y & r & r' & E & _)]); [discriminate|destruct p; discriminate].
  - split; [|reflexivity]. intros _. exists []. left. split; [reflexivity|]. now exists y, b.
  - split; [discriminate|]. intros (p & [[<- (y & r & E)]|(u & v & r & r' & _ & E & _)]); [discriminate|destruct p; discriminate].
  - destruct (N.ltb_spec x y) as [L|L].
    + split; [|reflexivity]. intros _. exists []. right. exists x, y, a, b. now split.
    + destruct (N.ltb_spec y x) as [L'|L'].
      * split; [discriminate|]. intros ([|u p] & [[E (v & r & E')]|(u' & v & r & r' & E & E' & B)]); try discriminate.
        -- injection E as -> ->. injection E' as -> ->. lia.
        -- injection E as -> ->. injection E' as -> ->. lia.
        -- injection E as -> ->. injection E' as -> ->. lia.
      * assert (x = y) as <- by lia. rewrite IH. split.
        -- intros (p & [[E (v & r & E')]|(u & v & r & r' & E & E' & B)]); exists (x :: p).
           ++ left. rewrite E, E'. split; [reflexivity|]. now exists v, r.
           ++ right. rewrite E, E'. now exists u, v, r, r'.
        -- intros ([|u p] & [[E (v & r & E')]|(u' & v & r & r' & E & E' & B)]); try discriminate.
           ++ injection E as <- <-. injection E' as <- <-. lia.
           ++ injection E as -> ->. injection E' as ->. exists p. left. split; [reflexivity|]. now exists v, r.
           ++ injection E as -> ->. injection E' as ->. exists p. right. now exists u', v, r, r'.
Qed.

(** ** Splitting *)
Lemma is_09_iff c : is_09 c = true <-> ascii_digit c.
Proof. unfold is_09, ascii_digit. lia. Qed.
Lemma split_text t : no_digits t -> forall cur s, split_num (t ++ s) cur false = split_num s (rev t ++ cur) false.
Proof.
  induction t as [|c t IH]; intros F cur s; [reflexivity|]. apply Forall_cons_iff in F as [Fc F]. cbn [app split_num].
  destruct (is_09 c) eqn:E; [apply is_09_iff in E; tauto|]. rewrite IH by exact F. cbn [rev]. now rewrite <- app_assoc.
Qed.
Lemma split_digits n : Forall ascii_digit n -> forall cur s, split_num (n ++ s) cur true = split_num s (rev n ++ cur) true.
Proof.
  induction n as [|c n IH]; intros F cur s; [reflexivity|]. apply Forall_cons_iff in F as [Fc F]. cbn [app split_num].
  apply is_09_iff in Fc. rewrite Fc. rewrite IH by exact F. cbn [rev]. now rewrite <- app_assoc.
Qed.
Definition flat_rest (rest : list (str * str)) : list str := flat_map (fun nt => [fst nt; snd nt]) rest.
Definition rest_ok (rest : list (str * str)) : Prop :=
  Forall (fun nt => fst nt <> [] /\ Forall ascii_digit (fst nt) /\ no_digits (snd nt)) rest
  /\ (forall l nt nt' l', rest = l ++ nt :: nt' :: l' -> snd nt <> []).
Lemma rest_ok_cons nt rest : rest_ok (nt :: rest) -> rest_ok rest.
Proof.
  intros [F G]. apply Forall_cons_iff in F as [_ F]. split; [exact F|]. intros l a b l' E. apply (G (nt :: l) a b l'). now rewrite E.
Qed.
Lemma split_rest rest : rest_ok rest -> forall cur,
  split_num (flat_map (fun nt => fst nt ++ snd nt) rest) cur false = rev cur :: flat_rest rest.
Proof.
  induction rest as [|[n t] rest IH]; intros R cur; [reflexivity|]. pose proof (rest_ok_cons _ _ R) as R'. destruct R as [F G].
  apply Forall_cons_iff in F as [(N0 & Dn & Nt) F]. cbn [fst snd flat_map flat_rest] in *.
  destruct n as [|c n]; [now destruct N0|]. apply Forall_cons_iff in Dn as [Dc Dn]. rewrite <- app_assoc. cbn [app split_num].
  apply is_09_iff in Dc. rewrite Dc. f_equal. rewrite split_digits by exact Dn.
  assert (rev (rev n ++ [c]) = c :: n) as En by (rewrite rev_app_distr, rev_involutive; reflexivity).
  destruct t as [|d t].
  - destruct rest as [|nt' rest]; [|exfalso; apply (G [] (c :: n, []) nt' rest); reflexivity].
    cbn [app flat_map split_num]. now rewrite En.
  - apply Forall_cons_iff in Nt as [Nd Nt]. cbn [app split_num].
    destruct (is_09 d) eqn:E; [apply is_09_iff in E; tauto|]. rewrite En. f_equal.
    rewrite split_text by exact Nt. rewrite IH by exact R'. rewrite rev_app_distr, rev_involutive. reflexivity.
Qed.
Lemma num_split_pieces id t0 rest : pieces id t0 rest -> num_split id = t0 :: flat_rest rest.
Proof.
  intros (-> & N0 & F & G). unfold num_split. rewrite split_text by exact N0. rewrite split_rest by now split. now rewrite app_nil_r, rev_involutive.
Qed.

(** Every ID has pieces. *)
Lemma pieces_exist id : exists t0 rest, pieces id t0 rest.
Proof.
  induction id as [|c id (t0 & rest & E & N0 & F & G)].
  - exists [], []. split; [reflexivity|]. split; [constructor|]. split; [constructor|]. intros [|? ?] ? ? ? X; discriminate.
  - destruct (is_09 c) eqn:D.
    + apply is_09_iff in D. destruct t0 as [|d t0].
      * destruct rest as [|[n t] rest].
        -- exists [], [([c], [])]. split; [cbn; now rewrite E|]. split; [constructor|]. split; [constructor; [cbn [fst snd]; split; [discriminate|split; [constructor; [exact D|constructor]|constructor]]|constructor]|].
           intros [|? [|? ?]] ? ? ? X; discriminate.
        -- apply Forall_cons_iff in F as [(A & B & C) F]. exists [], ((c :: n, t) :: rest). split; [rewrite E; reflexivity|]. split; [constructor|].
           split; [constructor; [|exact F]; cbn [fst snd] in *; split; [discriminate|]; split; [now constructor|exact C]|].
           intros [|x l] nt nt' l' X.
           ++ injection X as <- X. cbn [snd]. apply (G [] (n, t) nt' l'). now rewrite X.
           ++ injection X as <- X. apply (G ((n, t) :: l) nt nt' l'). now rewrite X.
      * exists [], (([c], d :: t0) :: rest). split; [rewrite E; reflexivity|]. split; [constructor|].
        split; [constructor; [|exact F]; cbn [fst snd]; split; [discriminate|]; split; [constructor; [exact D|constructor]|exact N0]|].
        intros [|x l] nt nt' l' X.
        -- injection X as <- X. cbn [snd]. discriminate.
        -- injection X as <- X. apply (G l nt nt' l'). now rewrite X.
    + exists (c :: t0), rest. split; [rewrite E; reflexivity|]. split; [constructor; [rewrite <- is_09_iff, D; discriminate|exact N0]|]. now split.
Qed.
Lemma pieces_unique id t0 rest t0' rest' : pieces id t0 rest -> pieces id t0' rest' -> t0 = t0' /\ rest = rest'.
Proof.
  intros A%num_split_pieces B%num_split_pieces. rewrite A in B. injection B as -> E. split; [reflexivity|].
  clear A. revert rest' E. induction rest as [|[n t] rest IH]; intros [|[n' t'] rest'] E; try discriminate; [reflexivity|].
  cbn in E. injection E as -> -> E. f_equal. now apply IH.
Qed.

(** ** Keys *)
Definition piece_of (v : value) : nat_piece := match v with VText t => PStr t | VNumber n => PInt (Z.of_N n) end.
Lemma digits_int w n : n <> [] -> Forall ascii_digit n -> isdigit w n = true /\ py_int w 10 n = Some (Z.of_N (number n)).
Proof.
  intros N0 F. split.
  - unfold isdigit. apply andb_true_iff. split; [destruct n; [now destruct N0|reflexivity]|]. apply forallb_forall. intros c Hc.
    rewrite Forall_forall in F. specialize (F c Hc). unfold char_isdigit, ascii_digit, is_09 in *. destruct (N.ltb_spec c 128); lia.
  - apply py_int_numeral; [lia|]. induction n as [|c n IH] using rev_ind; [now destruct N0|].
    apply Forall_app in F as [F Fc]. apply Forall_cons_iff in Fc as [Fc _]. unfold ascii_digit in Fc.
    assert (numeral_digit 10 c (c - 48)) as D by (split; [left; lia|lia]).
    unfold number. rewrite fold_left_app. cbn [fold_left]. destruct n as [|d n].
    + cbn [fold_left app]. change (10 * 0 + (c - 48)) with (c - 48). now constructor.
    + rewrite N.mul_comm. apply numeral_more; [|exact D]. apply IH; [discriminate|exact F].
Qed.
Lemma nat_key_values w id t0 rest : pieces id t0 rest -> plain_texts w t0 rest -> nat_key w id = Ok (map piece_of (values w t0 rest)).
Proof.
  intros P T. unfold nat_key. rewrite (num_split_pieces _ _ _ P). destruct P as (_ & _ & F & _).
  apply Forall_cons_iff in T as [T0 T]. unfold values. cbn [map mapM].
  unfold convert_piece at 1. rewrite T0. cbn [bind].
  assert (mapM (convert_piece w) (flat_rest rest) = Ok (map piece_of (flat_map (fun nt => [VNumber (number (fst nt)); VText (lower w (snd nt))]) rest))) as ->; [|reflexivity].
  induction rest as [|[n t] rest IH]; [reflexivity|]. apply Forall_cons_iff in F as [(A & B & _) F]. cbn [map] in T. apply Forall_cons_iff in T as [Tt T].
  cbn [fst snd] in *. cbn [flat_rest flat_map app mapM map fst snd]. destruct (digits_int w n A B) as [D I]. unfold convert_piece at 1. rewrite D, I. cbn [bind].
  unfold convert_piece at 1. rewrite Tt. cbn [bind]. change (flat_map (fun nt : str * str => [fst nt; snd nt]) rest) with (flat_rest rest).
  rewrite (IH F T). reflexivity.
Qed.

(** ** Comparison *)
Lemma fd_cons {A} (R : A -> A -> Prop) x y a b : first_difference R (x :: a) (y :: b) <-> R x y \/ (x = y /\ first_difference R a b).
Proof.
  split.
  - intros ([|u p] & [[E (v & r & E')]|(u' & v & r & r' & E & E' & B)]); try discriminate.
    + injection E as -> ->. injection E' as -> ->. now left.
    + injection E as -> ->. injection E' as -> ->. right. split; [reflexivity|]. exists p. left. split; [reflexivity|]. now exists v, r.
    + injection E as -> ->. injection E' as -> ->. right. split; [reflexivity|]. exists p. right. now exists u', v, r, r'.
  - intros [H|[-> (p & [[E (v & r & E')]|(u' & v & r & r' & E & E' & B)])]].
    + exists []. right. now exists x, y, a, b.
    + exists (y :: p). left. rewrite E, E'. split; [reflexivity|]. now exists v, r.
    + exists (y :: p). right. rewrite E, E'. now exists u', v, r, r'.
Qed.
Lemma fd_nil_r {A} (R : A -> A -> Prop) a : ~ first_difference R a [].
Proof. intros (p & [[E (v & r & E')]|(u' & v & r & r' & E & E' & B)]); destruct p; discriminate. Qed.
Lemma fd_nil_l {A} (R : A -> A -> Prop) y b : first_difference R [] (y :: b).
Proof. exists []. left. split; [reflexivity|]. now exists y, b. Qed.

(** Positions hold the same kind of values in all IDs. *)
Fixpoint same_kinds (a b : list value) : Prop :=
  match a, b with
  | x :: a', y :: b' => match x, y with VText _, VText _ | VNumber _, VNumber _ => True | _, _ => False end /\ same_kinds a' b'
  | _, _ => True
  end.
Lemma values_kinds w t0 rest t0' rest' : same_kinds (values w t0 rest) (values w t0' rest').
Proof.
  unfold values. cbn [same_kinds]. split; [exact I|]. revert rest'.
  induction rest as [|[n t] rest IH]; intros [|[n' t'] rest']; cbn [flat_map app same_kinds]; try exact I. repeat split; apply IH.
Qed.
Lemma key_lt_values a : forall b, same_kinds a b ->
  (key_lt (map piece_of a) (map piece_of b) = Ok true <-> first_difference value_before a b)
  /\ exists x, key_lt (map piece_of a) (map piece_of b) = Ok x.
Proof.
  induction a as [|x a IH]; intros [|y b] K; cbn [map key_lt].
  - split; [|eauto]. split; [discriminate|]. intros H. now apply fd_nil_r in H.
  - split; [|eauto]. split; [intros _; apply fd_nil_l|reflexivity].
  - split; [|eauto]. split; [discriminate|]. intros H. now apply fd_nil_r in H.
  - destruct K as [K1 K]. destruct (IH b K) as [I J]. rewrite fd_cons. destruct x as [s|i], y as [t|j]; try tauto; cbn [piece_of value_before].
    + destruct (str_eqb s t) eqn:E.
      * apply str_eqb_eq in E. subst t. split; [|exact J]. rewrite I. split; [now right|]. intros [H|[_ H]]; [|exact H].
        apply lex_iff in H. exfalso. clear - H. induction s as [|c s IHs]; [discriminate|]. cbn [lex_ltb] in H. rewrite N.ltb_irrefl in H. auto.
      * apply str_eqb_neq in E. split; [|eauto]. rewrite <- lex_iff. split.
        -- intros H. apply Ok_inj in H. now left.
        -- intros [H|[H _]]; [now rewrite H|]. injection H as ->. now destruct E.
    + destruct (Z.eqb_spec (Z.of_N i) (Z.of_N j)) as [E|E].
      * assert (i = j) as <- by lia. split; [|exact J]. rewrite I. split; [now right|]. intros [H|[_ H]]; [lia|exact H].
      * split; [|eauto]. split.
        -- intros H. apply Ok_inj in H. left. lia.
        -- intros [H|[H _]]; [f_equal; lia|]. injection H as ->. now destruct E.
Qed.
Lemma natural_iff w a b ta ra tb rb : pieces a ta ra -> pieces b tb rb -> plain_texts w ta ra -> plain_texts w tb rb ->
  natural_lt w a b <-> first_difference value_before (values w ta ra) (values w tb rb).
Proof.
  intros A B Pa Pb. pose proof (nat_key_values _ _ _ _ A Pa) as Ka. pose proof (nat_key_values _ _ _ _ B Pb) as Kb.
  destruct (key_lt_values _ _ (values_kinds w ta ra tb rb)) as [H _]. rewrite <- H. unfold natural_lt. split.
  - intros (ka & kb & X & Y & Z). rewrite Ka in X. rewrite Kb in Y. apply Ok_inj in X, Y. now subst.
  - intros Z. eauto.
Qed.
(** The check of a new ID against the largest one *)
Lemma natural_check w mi m id tm rm t0 rest : pieces m tm rm -> pieces id t0 rest -> plain_texts w tm rm -> plain_texts w t0 rest ->
  (first_difference value_before (values w tm rm) (values w t0 rest) -> used_check w (Natural mi (Some m)) id = Ok tt)
  /\ (~ first_difference value_before (values w tm rm) (values w t0 rest) -> used_check w (Natural mi (Some m)) id = Err (DuplicateReceiptId id)).
Proof.
  intros A B Pa Pb. cbn [used_check]. rewrite (nat_key_values _ _ _ _ A Pa), (nat_key_values _ _ _ _ B Pb). cbn [bind].
  destruct (key_lt_values _ _ (values_kinds w tm rm t0 rest)) as [H [x X]]. rewrite X in *. cbn [bind]. rewrite <- H. destruct x; split; intros Y.
  - reflexivity.
  - now destruct Y.
  - discriminate.
  - reflexivity.
Qed.
Lemma plain_ascii w id t0 rest : pieces id t0 rest -> Forall (fun c => c < 128) id -> plain_texts w t0 rest.
Proof.
  intros (-> & N0 & F & _) A. apply Forall_app in A as [A0 A].
  assert (forall t, no_digits t -> Forall (fun c => c < 128) t -> isdigit w t = false) as D.
  { intros [|c t] Nt At; [reflexivity|]. apply Forall_cons_iff in Nt as [Nc _], At as [Ac _]. unfold isdigit. cbn [nonempty forallb andb].
    unfold char_isdigit. destruct (N.ltb_spec c 128); [|lia]. destruct (is_09 c) eqn:E; [apply is_09_iff in E; tauto|reflexivity]. }
  constructor; [now apply D|]. induction rest as [|[n t] rest IH]; [constructor|]. apply Forall_cons_iff in F as [(_ & _ & Nt) F].
  cbn [flat_map fst snd] in *. apply Forall_app in A as [A1 A]. apply Forall_app in A1 as [_ At]. constructor; [now apply D|]. now apply IH.
Qed.
Lemma pieces_total id : exists t0 rest, pieces id t0 rest
  /\ (forall t0' rest', pieces id t0' rest' -> t0' = t0 /\ rest' = rest)
  /\ (forall w, Forall (fun c => c < 128) id -> plain_texts w t0 rest).
Proof.
  destruct (pieces_exist id) as (t0 & rest & P). exists t0, rest. split; [exact P|].
  split; [intros; now apply (pieces_unique id)|]. intros w A. now apply (plain_ascii w id).
Qed.
Lemma foreign_digits w mi :
  (u_isdigit w 178 = true -> u_decimal w 178 = None -> u_isspace w 178 = false ->
   used_check w (Natural mi (Some (lit "1"))) [178] = Err PyValueError)
  /\ (u_isdigit w 1635 = true -> u_decimal w 1635 = Some 3 -> u_isspace w 1635 = false ->
   used_check w (Natural mi (Some (lit "1"))) [1635] = Err PyTypeError).
Proof.
  assert (nat_key w (lit "1") = Ok [PStr []; PInt 1; PStr []]) as K by reflexivity.
  split; intros D V S; cbn [used_check]; rewrite K; cbn [bind].
  - assert (nat_key w [178] = Err PyValueError) as ->; [|reflexivity].
    unfold nat_key. change (num_split [178]) with [[178]]. cbn [mapM]. unfold convert_piece, isdigit. cbn [nonempty forallb andb].
    unfold char_isdigit. change (178 <? 128) with false. cbn iota. rewrite D. cbn [andb]. assert (int_transform w [178] = [63]) as E; [|unfold py_int; rewrite E; reflexivity].
    unfold int_transform, char_isspace, decimal. change (is_ascii [178]) with false. cbn [map]. change (178 <? 127) with false. change (178 <? 128) with false. cbn iota.
    rewrite ?S, ?V. reflexivity.
  - assert (nat_key w [1635] = Ok [PInt 3]) as ->; [|reflexivity].
    unfold nat_key. change (num_split [1635]) with [[1635]]. cbn [mapM]. unfold convert_piece, isdigit. cbn [nonempty forallb andb].
    unfold char_isdigit. change (1635 <? 128) with false. cbn iota. rewrite D. cbn [andb]. assert (int_transform w [1635] = [51]) as E; [|unfold py_int; rewrite E; reflexivity].
    unfold int_transform, char_isspace, decimal. change (is_ascii [1635]) with false. cbn [map]. change (1635 <? 127) with false. change (1635 <? 128) with false. cbn iota.
    rewrite ?S, ?V. reflexivity.
Qed.
