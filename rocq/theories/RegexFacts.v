(** The matcher of [Regex.v] decides the declarative meaning of patterns, and
    what each pattern of the code means. *)
From Coq Require Import Lia.
From Verif Require Import PyBase World Regex ListFacts.
Open Scope N_scope.

Lemma nullable_lang r : nullable r = true <-> lang r [].
Proof.
  induction r; simpl; split; intros H; try discriminate; try (now constructor).
  - inversion H.
  - inversion H.
  - apply andb_true_iff in H as [H1 H2]. change (@nil N) with (@nil N ++ []).
    constructor; [now apply IHr1|now apply IHr2].
  - inversion H as [| |a b s t Ha Hb Eq Es| | | |]; subst.
    apply app_eq_nil in Es as [-> ->]. rewrite (proj2 IHr1 Ha). now apply IHr2.
  - apply orb_true_iff in H as [H|H]; [apply LAltL; now apply IHr1|apply LAltR; now apply IHr2].
  - apply orb_true_iff. inversion H; subst; [left; now apply IHr1|right; now apply IHr2].
Qed.

Lemma lang_seq a b s : lang (seq a b) s <-> lang (RSeq a b) s.
Proof.
  destruct a; simpl; try reflexivity; split; intros H.
  - inversion H.
  - inversion H as [| |? ? ? ? Ha| | | |]; subst. inversion Ha.
  - change s with ([] ++ s). constructor; [constructor|assumption].
  - inversion H as [| |? ? ? ? Ha Hb| | | |]; subst. inversion Ha; subst. exact Hb.
Qed.

Lemma lang_alt a b s : lang (alt a b) s <-> lang a s \/ lang b s.
Proof.
  assert (lang (RAlt a b) s <-> lang a s \/ lang b s) as E.
  { split; [intros H; inversion H; subst; auto|intros [H|H]; [now apply LAltL|now apply LAltR]]. }
  assert (forall x, ~ lang REmp x) as F by (intros x H; inversion H).
  destruct a, b; simpl; try exact E; split; intros H;
    try (now left); try (now right); try (destruct H as [H|H]; [now apply F in H|assumption]);
    try (destruct H as [H|H]; [assumption|now apply F in H]); try (now apply F in H).
Qed.

Lemma deriv_lang c r : forall s, lang (deriv c r) s <-> lang r (c :: s).
Proof.
  induction r; intros s; simpl; split; intros H; try (now inversion H).
  - destruct (f c) eqn:E; inversion H; subst. now constructor.
  - inversion H as [|? ? Hf| | | | |]; subst. rewrite Hf. constructor.
  - destruct (nullable r1) eqn:N1.
    + apply lang_alt in H as [H|H].
      * apply lang_seq in H. inversion H as [| |? ? s1 s2 Ha Hb| | | |]; subst.
        apply IHr1 in Ha. change (c :: s1 ++ s2) with ((c :: s1) ++ s2). now constructor.
      * apply IHr2 in H. change (c :: s) with ([] ++ c :: s). constructor; [now apply nullable_lang|assumption].
    + apply lang_seq in H. inversion H as [| |? ? s1 s2 Ha Hb| | | |]; subst.
      apply IHr1 in Ha. change (c :: s1 ++ s2) with ((c :: s1) ++ s2). now constructor.
  - inversion H as [| |? ? s1 s2 Ha Hb Eq Es| | | |]; subst. destruct s1 as [|x s1]; simpl in Es.
    + subst. apply nullable_lang in Ha. rewrite Ha. apply lang_alt. right. now apply IHr2.
    + injection Es as -> <-.
      assert (lang (seq (deriv c r1) r2) (s1 ++ s2)) as G.
      { apply lang_seq. constructor; [now apply IHr1|assumption]. }
      destruct (nullable r1); [apply lang_alt; now left|exact G].
  - apply lang_alt in H as [H|H]; [apply LAltL; now apply IHr1|apply LAltR; now apply IHr2].
  - apply lang_alt. inversion H; subst; [left; now apply IHr1|right; now apply IHr2].
  - apply lang_seq in H. inversion H as [| |? ? s1 s2 Ha Hb| | | |]; subst.
    apply IHr in Ha. change (c :: s1 ++ s2) with ((c :: s1) ++ s2). now constructor.
  - remember (RStar r) as q eqn:Eq. remember (c :: s) as t eqn:Et. revert s Et.
    induction H; intros s' Et; try discriminate.
    injection Eq as ->. destruct s as [|x s]; simpl in Et.
    + now apply IHlang2.
    + injection Et as -> <-. apply lang_seq. constructor; [now apply IHr|assumption].
Qed.

Theorem matches_lang r s : matches r s = true <-> lang r s.
Proof.
  revert r. induction s as [|c s IH]; intros r; simpl.
  - apply nullable_lang.
  - rewrite IH. apply deriv_lang.
Qed.

(** ** Readable meanings *)

Lemma lang_Cls f s : lang (RCls f) s <-> exists c, s = [c] /\ f c = true.
Proof.
  split; [intros H; inversion H; subst; eauto|intros (c & -> & H); now constructor].
Qed.
Lemma lang_Chr x s : lang (RChr x) s <-> s = [x].
Proof.
  unfold RChr. rewrite lang_Cls. split.
  - intros (c & -> & H). apply N.eqb_eq in H. now subst.
  - intros ->. exists x. split; [reflexivity|apply N.eqb_refl].
Qed.
Lemma lang_Seq a b s : lang (RSeq a b) s <-> exists s1 s2, s = s1 ++ s2 /\ lang a s1 /\ lang b s2.
Proof.
  split; [intros H; inversion H; subst; eauto 6|intros (s1 & s2 & -> & H1 & H2); now constructor].
Qed.
Lemma lang_Alt a b s : lang (RAlt a b) s <-> lang a s \/ lang b s.
Proof.
  split; [intros H; inversion H; subst; auto|intros [H|H]; [now apply LAltL|now apply LAltR]].
Qed.
Lemma lang_Eps s : lang REps s <-> s = [].
Proof. split; [intros H; now inversion H|intros ->; constructor]. Qed.
Lemma lang_Opt r s : lang (ROpt r) s <-> s = [] \/ lang r s.
Proof. unfold ROpt. rewrite lang_Alt, lang_Eps. tauto. Qed.
Lemma lang_StarCls f s : lang (RStar (RCls f)) s <-> forallb f s = true.
Proof.
  split.
  - intros H. remember (RStar (RCls f)) as q eqn:Eq.
    induction H; try discriminate; [reflexivity|].
    injection Eq as ->. rewrite forallb_app. apply lang_Cls in H as (c & -> & Hc).
    simpl. rewrite Hc. simpl. now apply IHlang2.
  - induction s as [|c s IH]; intros H; [constructor|].
    simpl in H. apply andb_true_iff in H as [H1 H2]. change (c :: s) with ([c] ++ s).
    constructor; [now constructor|now apply IH].
Qed.
Lemma lang_UpToChr n x s : lang (RUpTo n (RChr x)) s <-> exists k, (k <= n)%nat /\ s = repeat x k.
Proof.
  revert s. induction n as [|n IH]; intros s; simpl.
  - rewrite lang_Eps. split.
    + intros ->. exists O. now split.
    + intros (k & Hk & ->). now replace k with O by lia.
  - rewrite lang_Opt, lang_Seq. split.
    + intros [->|(s1 & s2 & -> & H1 & H2)]; [exists O; split; [lia|reflexivity]|].
      apply lang_Chr in H1 as ->. apply IH in H2 as (k & Hk & ->). exists (S k). split; [lia|reflexivity].
    + intros ([|k] & Hk & ->); [now left|right]. exists [x], (repeat x k).
      split; [reflexivity|]. split; [now apply lang_Chr|]. apply IH. exists k. split; [lia|reflexivity].
Qed.
Lemma lang_Str t s : lang (RStr t) s <-> s = t.
Proof.
  revert s. induction t as [|c t IH]; intros s; simpl.
  - apply lang_Eps.
  - rewrite lang_Seq. split.
    + intros (s1 & s2 & -> & H1 & H2). apply lang_Chr in H1 as ->. apply IH in H2 as ->. reflexivity.
    + intros ->. exists [c], t. split; [reflexivity|]. split; [now apply lang_Chr|now apply IH].
Qed.

(** An optional newline at the end. *)
Definition opt_nl (s : str) : Prop := s = [] \/ s = [c_nl].

Lemma re_match_spec r s :
  re_match r s = true <-> exists t nl, s = t ++ nl /\ lang r t /\ opt_nl nl.
Proof.
  unfold re_match. rewrite matches_lang, lang_Seq. split.
  - intros (t & nl & -> & H & Hn). apply lang_Opt in Hn. exists t, nl.
    rewrite lang_Chr in Hn. firstorder.
  - intros (t & nl & -> & H & Hn). exists t, nl. repeat split; try assumption.
    apply lang_Opt. rewrite lang_Chr. exact Hn.
Qed.

Lemma b64Regex_spec s :
  re_match b64Regex s = true <->
  exists d k nl, s = d ++ repeat c_eq k ++ nl /\ forallb is_b64_char d = true /\ (k <= 3)%nat /\ opt_nl nl.
Proof.
  rewrite re_match_spec. unfold b64Regex. split.
  - intros (t & nl & -> & H & Hn). apply lang_Seq in H as (d & e & -> & Hd & He).
    apply lang_StarCls in Hd. apply lang_UpToChr in He as (k & Hk & ->).
    exists d, k, nl. now rewrite <- app_assoc.
  - intros (d & k & nl & -> & Hd & Hk & Hn). exists (d ++ repeat c_eq k), nl.
    rewrite <- app_assoc. repeat split; try assumption. apply lang_Seq.
    exists d, (repeat c_eq k). repeat split; [now apply lang_StarCls|]. apply lang_UpToChr. eauto.
Qed.

Lemma urlsafe_b64Regex_spec s :
  re_match urlsafe_b64Regex s = true <->
  exists d k nl, s = d ++ repeat c_eq k ++ nl /\ forallb is_b64url_char d = true /\ (k <= 3)%nat /\ opt_nl nl.
Proof.
  rewrite re_match_spec. unfold urlsafe_b64Regex. split.
  - intros (t & nl & -> & H & Hn). apply lang_Seq in H as (d & e & -> & Hd & He).
    apply lang_StarCls in Hd. apply lang_UpToChr in He as (k & Hk & ->).
    exists d, k, nl. now rewrite <- app_assoc.
  - intros (d & k & nl & -> & Hd & Hk & Hn). exists (d ++ repeat c_eq k), nl.
    rewrite <- app_assoc. repeat split; try assumption. apply lang_Seq.
    exists d, (repeat c_eq k). repeat split; [now apply lang_StarCls|]. apply lang_UpToChr. eauto.
Qed.

Lemma b32Regex_spec s :
  re_match b32Regex s = true <->
  exists d k nl, s = d ++ repeat c_eq k ++ nl /\ forallb is_b32_re_char d = true /\ (k <= 7)%nat /\ opt_nl nl.
Proof.
  rewrite re_match_spec. unfold b32Regex. split.
  - intros (t & nl & -> & H & Hn). apply lang_Seq in H as (d & e & -> & Hd & He).
    apply lang_StarCls in Hd. apply lang_UpToChr in He as (k & Hk & ->).
    exists d, k, nl. now rewrite <- app_assoc.
  - intros (d & k & nl & -> & Hd & Hk & Hn). exists (d ++ repeat c_eq k), nl.
    rewrite <- app_assoc. repeat split; try assumption. apply lang_Seq.
    exists d, (repeat c_eq k). repeat split; [now apply lang_StarCls|]. apply lang_UpToChr. eauto.
Qed.
