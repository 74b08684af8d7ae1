(** Consequences of the validity of a sequence. *)
From Verif Require Import PyBase World Codec PyFloat PyTime Algo Receipt ListFacts CodecFacts CodecFacts2 SpecReceipt ReceiptFacts
  RoundTrip DepBase Json Pem KeyStore VerifyReceipt State DepParser Verify SpecDep SpecCluster VerifyFacts StepFacts
  DepFacts ClusterFacts AcceptFacts.
From Coq Require Import Lia.
Open Scope N_scope.
Open Scope py_scope.

(** ** Order *)

Lemma lex_irrefl a : lex_ltb a a = false.
Proof. induction a as [|x a IH]; [reflexivity|]. cbn [lex_ltb]. now rewrite N.ltb_irrefl. Qed.

Lemma lex_trans a : forall b c, lex_ltb a b = true -> lex_ltb b c = true -> lex_ltb a c = true.
Proof.
  induction a as [|x a IH]; intros [|y b] [|z c]; cbn [lex_ltb]; try discriminate; try reflexivity.
  destruct (N.ltb_spec x y), (N.ltb_spec y x), (N.ltb_spec y z), (N.ltb_spec z y), (N.ltb_spec x z), (N.ltb_spec z x);
    try discriminate; try reflexivity; try lia; eauto.
Qed.

(** "Not before" is transitive. *)
Lemma lex_ge_trans a : forall b c, lex_ltb b a = false -> lex_ltb c b = false -> lex_ltb c a = false.
Proof.
  induction a as [|x a IH]; intros [|y b] [|z c]; cbn [lex_ltb]; try discriminate; try reflexivity.
  destruct (N.ltb_spec x y), (N.ltb_spec y x), (N.ltb_spec y z), (N.ltb_spec z y), (N.ltb_spec x z), (N.ltb_spec z x);
    try discriminate; try reflexivity; try lia; eauto.
Qed.

Lemma not_before_trans a b c : not_before b a -> not_before c b -> not_before c a.
Proof. unfold not_before, dt_ltb. intros H1 H2. exact (lex_ge_trans _ _ _ H1 H2). Qed.

Lemma key_lt_irrefl a : key_lt a a <> Ok true.
Proof.
  induction a as [|[i|s] a IH]; cbn [key_lt]; [discriminate| |].
  - now rewrite Z.eqb_refl.
  - now rewrite str_eqb_refl.
Qed.

Lemma key_lt_trans a : forall b c, key_lt a b = Ok true -> key_lt b c = Ok true -> key_lt a c = Ok true.
Proof.
  induction a as [|x a IH]; intros [|y b] [|z c] H1 H2; cbn [key_lt] in *; try discriminate; try reflexivity.
  destruct x as [i|s], y as [j|t], z as [k|r]; try discriminate.
  - destruct (Z.eqb_spec i j) as [->|].
    + destruct (Z.eqb_spec j k); [eauto|assumption].
    + destruct (Z.eqb_spec j k) as [->|].
      * destruct (Z.eqb_spec i k); [contradiction|assumption].
      * injection H1 as H1. injection H2 as H2. apply Z.ltb_lt in H1, H2.
        destruct (Z.eqb_spec i k); [lia|]. f_equal. apply Z.ltb_lt. lia.
  - destruct (str_eqb s t) eqn:E1.
    + apply str_eqb_eq in E1. subst. destruct (str_eqb t r); [eauto|assumption].
    + destruct (str_eqb t r) eqn:E2.
      * apply str_eqb_eq in E2. subst. now rewrite E1.
      * injection H1 as H1. injection H2 as H2. assert (lex_ltb s r = true) as L by (eapply lex_trans; eauto).
        destruct (str_eqb s r) eqn:E3; [|now rewrite L]. apply str_eqb_eq in E3. subst. now rewrite lex_irrefl in L.
Qed.

(** ** The descriptions of contents are unambiguous *)

Lemma map_JStr_inj l : forall l', map JStr l = map JStr l' -> l = l'.
Proof. induction l as [|a l IH]; intros [|b l'] E; try discriminate; [reflexivity|]. cbn in E. injection E as -> E. f_equal. auto. Qed.

Lemma elements_fun j l l' : elements j l -> elements j l' -> l = l'.
Proof.
  intros [->|[(s & -> & ->)|(d & -> & ->)]] [E|[(s' & E & ->)|(d' & E & ->)]]; try discriminate; try congruence.
  injection E as E. now apply map_JStr_inj in E.
Qed.

Lemma Forall2_fun {A B} (R : A -> B -> Prop) l : (forall x y y', R x y -> R x y' -> y = y') ->
  forall m m', Forall2 R l m -> Forall2 R l m' -> m = m'.
Proof.
  intros H. induction l as [|x l IH]; intros m m' F F'; inversion F; inversion F'; subst; [reflexivity|]. f_equal; eauto.
Qed.

Lemma cert_text_fun w s c c' : cert_text w s c -> cert_text w s c' -> c = c'.
Proof. unfold cert_text. intros -> H. now apply Ok_inj in H. Qed.

Lemma group_is_fun w j g g' : group_is w j g -> group_is w j g' -> g = g'.
Proof.
  intros (d & jr & sc & ch & -> & E1 & El & E2 & C & E3 & F) (d' & jr' & sc' & ch' & Ed & E1' & El' & E2' & C' & E3' & F').
  injection Ed as <-. rewrite E1 in E1'. injection E1' as <-. rewrite E2 in E2'. injection E2' as <-.
  rewrite E3 in E3'. injection E3' as E3'. apply map_JStr_inj in E3'. subst ch'.
  destruct g as [t o l], g' as [t' o' l']. cbn [gr_texts gr_cert gr_chain] in *. f_equal.
  - eapply elements_fun; eauto.
  - destruct C as [[-> ->]|(N & c & C & ->)], C' as [[E ->]|(N' & c' & C' & ->)]; try congruence;
      f_equal; eapply cert_text_fun; eassumption.
  - eapply Forall2_fun; eauto. apply cert_text_fun.
Qed.

Lemma dep_is_fun w dep gs gs' : dep_is w dep gs -> dep_is w dep gs' -> gs = gs'.
Proof.
  intros (d & js & -> & E & F) (d' & js' & Ed & E' & F'). injection Ed as <-. rewrite E in E'. injection E' as <-.
  eapply Forall2_fun; eauto. apply group_is_fun.
Qed.

Lemma text_item_fun w b i i' : text_item w b i -> text_item w b i' -> i = i'.
Proof.
  intros (A & R & V) (A' & R' & V'). destruct i, i'. cbn in *. subst. f_equal. eapply reads_fun; eauto.
Qed.

Lemma dep_items_fun w ks dep l l' : dep_items w ks dep l -> dep_items w ks dep l' -> l = l'.
Proof.
  intros (gs & D & F) (gs' & D' & F'). rewrite <- (dep_is_fun _ _ _ _ D D') in F'.
  eapply Forall2_fun; eauto. apply text_item_fun.
Qed.

Lemma dep_ok_items w ks dep l : dep_ok w ks dep l -> dep_items w ks dep l.
Proof. intros (gs & D & _ & F & _). exists gs. auto. Qed.

Lemma selects_fun c idx b r a b' r' a' : selects c idx b r a -> selects c idx b' r' a' -> b = b' /\ r = r' /\ a = a'.
Proof.
  intros S S'. pose proof (get_selects _ _ _ _ _ S) as G. pose proof (get_selects _ _ _ _ _ S') as G'.
  rewrite G in G'. injection G' as G1 _ G3.
  assert (List.length b = List.length b').
  { destruct S as [b r a E|idx D T]; inversion S' as [b0 r0 a0 E' E1|idx0 D' T' E1]; subst.
    - lia.
    - destruct D' as [D'|D']; [discriminate|]. injection D' as D'. rewrite E, app_length in D'. cbn [List.length] in D'. lia.
    - destruct D as [D|D]; [discriminate|]. injection D as D. rewrite E', app_length in D. cbn [List.length] in D. lia.
    - reflexivity. }
  clear S S' G G3. revert b' G1 H. induction b as [|x b IH]; intros [|y b'] E L; try discriminate.
  - cbn [app] in E. injection E as -> ->. auto.
  - cbn [app] in E. injection E as -> E. destruct (IH b' E) as (-> & -> & ->); [cbn in L; lia|]. auto.
Qed.

Lemma past_of_fun w reg p p' : past_of w reg p -> past_of w reg p' -> p = p'.
Proof.
  destruct p as [[s r]|], p' as [[s' r']|]; cbn; try reflexivity.
  - intros (E & _ & R) (E' & _ & R'). rewrite E in E'. apply Some_inj in E'. subst. now rewrite (reads_fun _ _ _ _ R R').
  - intros (E & N & _) [H|H]; rewrite E in H; [discriminate|]. apply Some_inj in H. congruence.
  - intros [H|H] (E & N & _); rewrite E in H; [discriminate|]. apply Some_inj in H. congruence.
Qed.

(** ** Chaining *)

Lemma linked_split p l1 a b l2 : In (as_past a, b) (linked p (l1 ++ a :: b :: l2)).
Proof. revert p. induction l1 as [|x l1 IH]; intros p; cbn [app linked]; [right; left; reflexivity|right; apply IH]. Qed.

Lemma chain_rule_split w n p l l1 a b l2 :
  chain_rule w n p l -> l = l1 ++ a :: b :: l2 -> chain_value w (i_jws a) (r_previousChain (i_rec b)).
Proof.
  intros H ->. destruct l1 as [|x l1]; cbn [app chain_rule] in H; destruct H as [_ H]; rewrite Forall_forall in H.
  - exact (H _ (or_introl eq_refl)).
  - exact (H _ (linked_split _ _ _ _ _)).
Qed.

Lemma chain_value_fun w s v v' : chain_value w s v -> chain_value w s v' -> v = v'.
Proof. intros (b & E & ->) (b' & E' & ->). rewrite E in E'. apply Ok_inj in E'. now subst. Qed.

(** ** IDs *)

Lemma used_check_unique w l x : used_check w (Unique l) x = Ok tt <-> ~ In x l.
Proof.
  cbn [used_check]. unfold mem. destruct (existsb (str_eqb x) l) eqn:E; cbn [negb].
  - apply existsb_In in E. split; [discriminate|contradiction].
  - split; [|reflexivity]. intros _ H. apply existsb_In in H. congruence.
Qed.

Lemma mem_In x l : mem x l = true <-> In x l.
Proof. apply existsb_In. Qed.

Lemma fresh_unique w l : forall u b,
  fresh_ids w (Unique u) b l <->
  match l with
  | [] => True
  | x :: r => NoDup l /\ (forall y, In y r -> ~ In y u) /\ (b = true -> ~ In x u)
  end.
Proof.
  induction l as [|x r IH]; intros u b; [reflexivity|]. cbn [fresh_ids]. rewrite used_check_unique. cbn [used_add].
  assert ((forall y, In y r -> ~ In y u) /\ ~ In x r <-> forall y, In y r -> ~ In y (if mem x u then u else u ++ [x]) /\ y <> x) as S.
  { split.
    - intros [A B] y Hy. split.
      + destruct (mem x u); [auto|]. rewrite in_app_iff. intros [H|[<-|[]]]; [now apply (A y)|contradiction].
      + now intros ->.
    - intros H. split.
      + intros y Hy Hu. destruct (H y Hy) as [N _]. apply N. destruct (mem x u); [assumption|]. apply in_app_iff. auto.
      + intros Hx. now destruct (H x Hx). }
  replace (if mem x u then Unique u else Unique (u ++ [x])) with (Unique (if mem x u then u else u ++ [x]))
    by now destruct (mem x u).
  rewrite IH, NoDup_cons_iff. destruct r as [|z r].
  - split; [|tauto]. intros [A _]. split; [split; [intros []|constructor]|]. split; [intros y []|exact A].
  - split.
    + intros (A & ND & B & C). split; [split; [|assumption]|split; [|assumption]].
      * apply (proj2 S). intros y Hy. split.
        -- destruct Hy as [<-|Hy]; [apply C; reflexivity|now apply B].
        -- intros ->. assert (In x (if mem x u then u else u ++ [x])) as I.
           { destruct (mem x u) eqn:M; [now apply mem_In|]. apply in_app_iff. right. now left. }
           destruct Hy as [E|Hy]; [apply C; [reflexivity|now rewrite E]|now apply (B x Hy)].
      * apply S. intros y Hy. split.
        -- destruct Hy as [<-|Hy]; [apply C; reflexivity|now apply B].
        -- intros ->. assert (In x (if mem x u then u else u ++ [x])) as I.
           { destruct (mem x u) eqn:M; [now apply mem_In|]. apply in_app_iff. right. now left. }
           destruct Hy as [E|Hy]; [apply C; [reflexivity|now rewrite E]|now apply (B x Hy)].
    + intros ((NX & ND) & B & C). destruct S as [S _]. specialize (S (conj B NX)).
      split; [assumption|]. split; [assumption|]. split.
      * intros y Hy. apply S. now right.
      * intros _. apply S. now left.
Qed.

Lemma natural_lt_trans w a b c : natural_lt w a b -> natural_lt w b c -> natural_lt w a c.
Proof.
  intros (ka & kb & A & B & L) (kb' & kc & B' & C & L'). rewrite B in B'. apply Ok_inj in B'. subst.
  exists ka, kc. split; [assumption|]. split; [assumption|]. eapply key_lt_trans; eauto.
Qed.

Lemma natural_lt_irrefl w a : ~ natural_lt w a a.
Proof. intros (ka & kb & A & B & L). rewrite A in B. apply Ok_inj in B. subst. now apply key_lt_irrefl in L. Qed.

Lemma used_check_natural w mi m x : used_check w (Natural mi (Some m)) x = Ok tt <-> natural_lt w m x.
Proof.
  cbn [used_check]. unfold natural_lt. split.
  - intros H. apply bind_Ok in H as (a & A & H). apply bind_Ok in H as (b & B & H). apply bind_Ok in H as (lt & L & H).
    destruct lt; [|discriminate]. eauto 10.
  - intros (ka & kb & A & B & L). rewrite A, B. cbn [bind]. rewrite L. reflexivity.
Qed.

Lemma increasing_lt w x l : increasing w (x :: l) -> forall y, In y l -> natural_lt w x y.
Proof.
  revert x. induction l as [|z l IH]; intros x H y Hy; [destruct Hy|]. destruct H as [H1 H2].
  destruct Hy as [<-|Hy]; [exact H1|]. eapply natural_lt_trans; [exact H1|]. now apply IH.
Qed.

Lemma increasing_NoDup w l : increasing w l -> NoDup l.
Proof.
  induction l as [|x l IH]; intros H; constructor.
  - intros I. apply (natural_lt_irrefl w x). now apply (increasing_lt w x l H).
  - apply IH. apply H.
Qed.

Lemma fresh_natural w l : forall mi ma b,
  fresh_ids w (Natural mi ma) b l <->
  increasing w l /\ (match l, ma with x :: _, Some m => b = true -> natural_lt w m x | _, _ => True end).
Proof.
  induction l as [|x r IH]; intros mi ma b.
  - split; [split|]; constructor.
  - cbn [fresh_ids used_add]. rewrite IH. cbn [increasing]. destruct r as [|y r].
    + split.
      * intros [A _]. split; [split; constructor|]. destruct ma as [m|]; [|constructor].
        intros E. apply A in E. now apply used_check_natural in E.
      * intros [_ A]. split; [|split; constructor]. intros E. destruct ma as [m|]; [|reflexivity].
        apply used_check_natural. auto.
    + split.
      * intros (A & B & C). split; [split; [now apply C|exact B]|]. destruct ma as [m|]; [|constructor].
        intros E. apply A in E. now apply used_check_natural in E.
      * intros ((C & B) & A). split; [|split; [exact B|intros _; exact C]]. intros E. destruct ma as [m|]; [|reflexivity].
        apply used_check_natural. auto.
Qed.

Lemma fresh_NoDup w u b l : fresh_ids w u b l -> NoDup l.
Proof.
  destruct u as [u|mi ma]; intros H.
  - apply fresh_unique in H. destruct l; [constructor|apply H].
  - apply fresh_natural in H. eapply increasing_NoDup. apply H.
Qed.

(** ** Consistency *)

Lemma consistent_pairs p l : Forall consistent (linked p l) ->
  forall l1 a l2 b l3, l = l1 ++ a :: l2 ++ b :: l3 ->
    r_registerId (i_rec b) = r_registerId (i_rec a)
    /\ (closed (i_rec b) <-> closed (i_rec a))
    /\ not_before (r_dateTime (i_rec b)) (r_dateTime (i_rec a)).
Proof.
  intros F l1 a l2 b l3 ->. revert p F. induction l1 as [|x l1 IH]; intros p F; cbn [app linked] in F.
  - apply Forall_cons_iff in F as [_ F]. revert a p F. induction l2 as [|y l2 IH]; intros a p F; cbn [app linked] in F.
    + apply Forall_cons_iff in F as [F _]. exact (F _ _ eq_refl).
    + apply Forall_cons_iff in F as [F1 F2]. destruct (F1 _ _ eq_refl) as (A & B & C).
      destruct (IH y p F2) as (A' & B' & C'). cbn [fst snd] in *. split; [congruence|]. split; [tauto|].
      eapply not_before_trans; eauto.
  - apply Forall_cons_iff in F as [_ F]. now apply IH in F.
Qed.

Lemma consistent_first s r l : Forall consistent (linked (Some (s, r)) l) ->
  forall b, In b l ->
    r_registerId (i_rec b) = r_registerId r
    /\ (closed (i_rec b) <-> closed r)
    /\ not_before (r_dateTime (i_rec b)) (r_dateTime r).
Proof.
  revert s r. induction l as [|x l IH]; intros s r F b Hb; [destruct Hb|]. cbn [linked] in F.
  apply Forall_cons_iff in F as [F1 F2]. destruct (F1 _ _ eq_refl) as (A & B & C). cbn [fst snd] in *.
  destruct Hb as [<-|Hb]; [auto|]. destruct (IH _ _ F2 b Hb) as (A' & B' & C').
  split; [congruence|]. split; [tauto|]. eapply not_before_trans; eauto.
Qed.

(** ** Sequences in parts *)

Lemma loop_ok_app w key ps l1 l2 : forall reg u p,
  loop_ok w key ps reg u p (l1 ++ l2) <->
  loop_ok w key ps reg u p l1 /\ loop_ok w key ps (regs key reg p l1) (used_after u l1) (last_of p l1) l2.
Proof.
  induction l1 as [|i l1 IH]; intros reg u p; cbn [app loop_ok regs last_of].
  - unfold used_after. cbn. tauto.
  - rewrite IH. unfold used_after, ids. cbn [map fold_left]. tauto.
Qed.

Lemma loop_ok_last w key ps l : forall reg u p x,
  loop_ok w key ps (set_last reg x) u p l <-> loop_ok w key ps reg u p l.
Proof.
  induction l as [|i l IH]; intros reg u p x; cbn [loop_ok]; [tauto|].
  change (reg_step key (set_last reg x) p i) with (set_last (reg_step key reg p i) x). rewrite IH.
  unfold step_ok. cbn [set_last s_restore s_counter s_chain]. tauto.
Qed.

Lemma regs_last key l : forall reg p x, regs key (set_last reg x) p l = set_last (regs key reg p l) x.
Proof.
  induction l as [|i l IH]; intros reg p x; [reflexivity|]. cbn [regs].
  change (reg_step key (set_last reg x) p i) with (set_last (reg_step key reg p i) x). now rewrite IH.
Qed.

Lemma used_after_app u l1 l2 : used_after u (l1 ++ l2) = used_after (used_after u l1) l2.
Proof. unfold used_after, ids. now rewrite map_app, fold_left_app. Qed.

Lemma last_of_app2 p l1 l2 : last_of p (l1 ++ l2) = last_of (last_of p l1) l2.
Proof. revert p. induction l1 as [|i l1 IH]; intros p; [reflexivity|]. cbn [app last_of]. apply IH. Qed.

(** The register after a sequence, as function. *)
Definition after (key : option bytes) (reg : regstate) (p : option past) (l : list item) : regstate :=
  match l with [] => reg | _ => set_last (regs key reg p l) (option_map fst (last_of p l)) end.

Lemma set_last_set_last r x y : set_last (set_last r x) y = set_last r y.
Proof. reflexivity. Qed.

Lemma after_nonempty key reg p l : l <> [] ->
  after key reg p l = set_last (regs key reg p l) (option_map fst (last_of p l)).
Proof. destruct l; [congruence|reflexivity]. Qed.

Lemma after_app key reg p l1 l2 :
  after key reg p (l1 ++ l2) = after key (after key reg p l1) (last_of p l1) l2.
Proof.
  destruct l1 as [|i l1]; [reflexivity|]. destruct l2 as [|j l2]; [now rewrite app_nil_r|].
  rewrite after_nonempty by (destruct l1; discriminate).
  rewrite (after_nonempty key _ _ (j :: l2)) by discriminate.
  rewrite (after_nonempty key reg p (i :: l1)) by discriminate.
  rewrite regs_app, last_of_app2, regs_last. reflexivity.
Qed.

Lemma valid_app w key ps reg u p l1 l2 :
  valid_sequence w key ps reg u p (l1 ++ l2) <->
  valid_sequence w key ps reg u p l1
  /\ valid_sequence w key ps (after key reg p l1) (used_after u l1) (last_of p l1) l2.
Proof.
  rewrite <- !loop_valid, loop_ok_app. unfold after. destruct l1 as [|i l1]; [reflexivity|].
  now rewrite loop_ok_last.
Qed.

Lemma past_after w key reg p l : past_of w reg p -> Forall (fun i => reads w (i_jws i) (i_rec i)) l ->
  past_of w (after key reg p l) (last_of p l).
Proof.
  intros P F. unfold after. destruct l as [|i0 l0] eqn:E; [exact P|]. rewrite <- E in *.
  assert (l <> []) as NE by (rewrite E; discriminate). destruct (exists_last NE) as (m & i & ->).
  rewrite last_of_app. cbn [as_past option_map fst past_of set_last s_last]. apply Forall_app in F as [_ F].
  apply Forall_cons_iff in F as [F _]. split; [reflexivity|]. split; [|exact F]. now apply reads_nonempty in F.
Qed.
