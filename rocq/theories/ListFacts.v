(** Facts about the helpers of [PyBase.v]. *)
From Coq Require Import Lia.
From Verif Require Import PyBase World.
Open Scope N_scope.
Open Scope py_scope.

Lemma str_eqb_refl s : str_eqb s s = true.
Proof. induction s; simpl; [reflexivity|]. now rewrite N.eqb_refl, IHs. Qed.

Lemma str_eqb_eq a b : str_eqb a b = true <-> a = b.
Proof.
  revert b. induction a as [|x a IH]; destruct b as [|y b]; simpl; split; intros H;
    try discriminate; try reflexivity.
  - apply andb_true_iff in H as [H1 H2]. apply N.eqb_eq in H1. apply IH in H2. now subst.
  - injection H as -> ->. rewrite N.eqb_refl. simpl. now apply IH.
Qed.

Lemma str_eqb_neq a b : str_eqb a b = false <-> a <> b.
Proof.
  rewrite <- str_eqb_eq. destruct (str_eqb a b); split; intros; congruence.
Qed.

Lemma Some_inj {A} (a b : A) : Some a = Some b -> a = b.
Proof. congruence. Qed.
Lemma Ok_inj {A} (a b : A) : Ok a = Ok b -> a = b.
Proof. congruence. Qed.

Lemma bind_Ok {A B} (m : result A) (f : A -> result B) (b : B) :
  bind m f = Ok b <-> exists a, m = Ok a /\ f a = Ok b.
Proof.
  destruct m as [a|e]; simpl; split.
  - intros H. now exists a.
  - intros (a' & H & H'). now injection H as <-.
  - discriminate.
  - intros (a' & H & _). discriminate.
Qed.

Lemma bind_Err {A B} (m : result A) (f : A -> result B) (e : exn) :
  bind m f = Err e <-> m = Err e \/ exists a, m = Ok a /\ f a = Err e.
Proof.
  destruct m as [a|e']; simpl; split.
  - intros H. right. now exists a.
  - intros [H|(a' & H & H')]; [discriminate|]. now injection H as <-.
  - intros H. left. congruence.
  - intros [H|(a' & H & _)]; [congruence|discriminate].
Qed.

(** ** Finite checks *)

Definition upto (n : nat) : list N := map N.of_nat (List.seq 0 n).

Lemma upto_spec n (P : N -> bool) :
  forallb P (upto n) = true -> forall v, v < N.of_nat n -> P v = true.
Proof.
  intros H v Hv. rewrite forallb_forall in H. apply H. unfold upto.
  apply in_map_iff. exists (N.to_nat v). split; [lia|]. apply in_seq. lia.
Qed.

(** ** Splitting and joining *)

Lemma has_char_false c s : has_char c s = false <-> ~ In c s.
Proof.
  unfold has_char. split.
  - intros H Hin. assert (existsb (N.eqb c) s = true) as E; [|congruence].
    apply existsb_exists. exists c. split; [assumption|apply N.eqb_refl].
  - intros H. destruct (existsb (N.eqb c) s) eqn:E; [|reflexivity].
    apply existsb_exists in E as (x & Hx & Ex). apply N.eqb_eq in Ex. now subst.
Qed.

Lemma has_char_true c s : has_char c s = true <-> In c s.
Proof.
  destruct (has_char c s) eqn:E.
  - split; [intros _|reflexivity]. apply existsb_exists in E as (x & Hx & Ex).
    apply N.eqb_eq in Ex. now subst.
  - split; [discriminate|]. intros H. apply has_char_false in E. contradiction.
Qed.

Lemma split_char_nonnil c s : split_char c s <> [].
Proof.
  induction s as [|x r IH]; simpl; [discriminate|].
  destruct (x =? c); [discriminate|]. destruct (split_char c r); discriminate.
Qed.

Lemma split_char_nosep c s : ~ In c s -> split_char c s = [s].
Proof.
  induction s as [|x r IH]; simpl; intros H; [reflexivity|].
  destruct (x =? c) eqn:E.
  - apply N.eqb_eq in E. subst. exfalso. apply H. now left.
  - rewrite IH; [reflexivity|]. intros Hin. apply H. now right.
Qed.

Lemma split_char_app c s t :
  ~ In c s -> split_char c (s ++ c :: t) = s :: split_char c t.
Proof.
  induction s as [|x r IH]; simpl; intros H.
  - now rewrite N.eqb_refl.
  - destruct (x =? c) eqn:E.
    + apply N.eqb_eq in E. subst. exfalso. apply H. now left.
    + rewrite IH; [reflexivity|]. intros Hin. apply H. now right.
Qed.

Lemma split_join c l :
  l <> [] -> Forall (fun s => ~ In c s) l -> split_char c (join [c] l) = l.
Proof.
  induction l as [|s l IH]; intros Hn Hf; [congruence|].
  inversion Hf as [|? ? Hs Hl]; subst. destruct l as [|t l].
  - simpl. now apply split_char_nosep.
  - change (join [c] (s :: t :: l)) with (s ++ c :: join [c] (t :: l)).
    rewrite split_char_app by assumption. rewrite IH; [reflexivity|discriminate|assumption].
Qed.

Lemma join_split c s : join [c] (split_char c s) = s.
Proof.
  induction s as [|x r IH]; simpl; [reflexivity|].
  destruct (x =? c) eqn:E.
  - apply N.eqb_eq in E. subst. destruct (split_char c r) as [|seg segs] eqn:F.
    + now apply split_char_nonnil in F.
    + change ([] ++ [c] ++ join [c] (seg :: segs) = c :: r). now rewrite IH.
  - destruct (split_char c r) as [|seg segs] eqn:F.
    + now apply split_char_nonnil in F.
    + destruct segs; simpl in *; now rewrite IH.
Qed.

Lemma split_char_no_sep c s : Forall (fun t => ~ In c t) (split_char c s).
Proof.
  induction s as [|x r IH]; simpl; [constructor; [easy|constructor]|].
  destruct (x =? c) eqn:E.
  - constructor; [easy|assumption].
  - apply N.eqb_neq in E. destruct (split_char c r) as [|seg segs].
    + constructor; [|constructor]. intros [H|H]; [congruence|easy].
    + inversion IH; subst. constructor; [|assumption].
      intros [H|H]; [congruence|contradiction].
Qed.

Lemma split_char_In c s t x : In t (split_char c s) -> In x t -> In x s.
Proof.
  revert t. induction s as [|y r IH]; simpl; intros t Ht Hx.
  - destruct Ht as [<-|[]]. easy.
  - destruct (y =? c).
    + destruct Ht as [<-|Ht]; [easy|]. right. eauto.
    + destruct (split_char c r) as [|seg segs] eqn:F.
      * destruct Ht as [<-|[]]. destruct Hx as [->|[]]. now left.
      * destruct Ht as [<-|Ht].
        -- destruct Hx as [->|Hx]; [now left|]. right. apply (IH seg); [now left|assumption].
        -- right. apply (IH t); [now right|assumption].
Qed.

Lemma remove_char_notin c s : ~ In c s -> remove_char c s = s.
Proof.
  induction s as [|x r IH]; simpl; intros H; [reflexivity|].
  destruct (x =? c) eqn:E; simpl.
  - apply N.eqb_eq in E. subst. exfalso. apply H. now left.
  - f_equal. apply IH. intros Hin. apply H. now right.
Qed.

Lemma remove_char_not_In c s : ~ In c (remove_char c s).
Proof.
  unfold remove_char. intros H. apply filter_In in H as [_ H].
  now rewrite N.eqb_refl in H.
Qed.

Lemma remove_char_app c s t : remove_char c (s ++ t) = remove_char c s ++ remove_char c t.
Proof. apply filter_app. Qed.

Lemma ends_with_char_app c s x : ends_with_char c (s ++ [x]) = (x =? c).
Proof.
  induction s as [|y r IH]; simpl; [reflexivity|].
  destruct (r ++ [x]) eqn:E; [destruct r; discriminate|]. rewrite <- E in *. exact IH.
Qed.

Lemma ends_with_char_In c s : ends_with_char c s = true -> In c s.
Proof.
  induction s as [|y r IH]; simpl; [discriminate|]. destruct r as [|z r].
  - intros H. apply N.eqb_eq in H. now left.
  - intros H. right. now apply IH.
Qed.

Lemma is_ascii_spec s : is_ascii s = true <-> Forall (fun c => c < 128) s.
Proof.
  unfold is_ascii. rewrite forallb_forall, Forall_forall.
  split; intros H x Hx; specialize (H x Hx); now apply N.ltb_lt.
Qed.

Lemma truthy_Some o s : truthy o = Some s <-> o = Some s /\ s <> [].
Proof.
  destruct o as [[|x r]|]; simpl; split.
  - discriminate.
  - intros [H H']. congruence.
  - intros H. injection H as <-. split; [reflexivity|discriminate].
  - intros [H H']. congruence.
  - discriminate.
  - intros [H _]. discriminate.
Qed.
