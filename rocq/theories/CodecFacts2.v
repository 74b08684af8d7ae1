(** Canonical base 64 texts; decoding as the inverse of encoding. *)
From Coq Require Import Lia ZifyClasses ZifyN ZifyNat ZifyBool.
From Verif Require Import PyBase World Regex Codec ListFacts RegexFacts CodecFacts.
Open Scope N_scope.
Open Scope py_scope.
Ltac Zify.zify_post_hook ::= Z.div_mod_to_equations.

(** Decoders return bytes. *)
Lemma a2b_bytes s : forall qp left pads b, a2b qp left pads s = Ok b -> is_bytes b.
Proof.
  unfold is_bytes. induction s as [|c s IH]; intros qp left pads b H.
  - destruct qp; cbn in H; [|discriminate]. injection H as <-. constructor.
  - cbn [a2b] in H. destruct (c =? c_eq).
    + destruct qp as [|[|qp]]; [now apply IH in H|now apply IH in H|].
      destruct (4 <=? N.of_nat (S (S qp)) + (pads + 1)); [injection H as <-; constructor|now apply IH in H].
    + destruct (b64_val c) as [v|] eqn:V; [|now apply IH in H].
      apply b64_val_range in V.
      destruct qp as [|[|[|qp]]]; [now apply IH in H| | |];
        apply bind_Ok in H as (t & Ht & H); apply Ok_inj in H; subst b;
        (constructor; [lia|now apply IH in Ht]).
Qed.

Lemma b64decode_bytes s b : b64decode s = Ok b -> is_bytes b.
Proof.
  unfold b64decode. intros H. apply bind_Ok in H as (t & _ & H).
  destruct (re_match b64Regex t); [|discriminate]. now apply a2b_bytes in H.
Qed.

Lemma urlsafe_b64decode_bytes s b : urlsafe_b64decode s = Ok b -> is_bytes b.
Proof.
  unfold urlsafe_b64decode. intros H. apply bind_Ok in H as (t & _ & H).
  destruct (re_match urlsafe_b64Regex t); [|discriminate]. now apply a2b_bytes in H.
Qed.

(** A text is canonically encoded if it has only alphabet characters, exactly
    the pad characters needed, and the bits that do not belong to any byte are
    zero. *)
Definition last_val (d : str) : N :=
  match b64_val (last d 0) with Some v => v | None => 0 end.

Definition canon64 (s : str) : Prop :=
  exists d k, s = d ++ repeat c_eq k /\ forallb is_b64_char d = true
    /\ ((List.length d + k) mod 4 = 0)%nat
    /\ (k = 0%nat \/ (k = 1%nat /\ last_val d mod 4 = 0) \/ (k = 2%nat /\ last_val d mod 16 = 0)).

Lemma list4_ind {A} (P : list A -> Prop) :
  P [] -> (forall a, P [a]) -> (forall a b, P [a; b]) -> (forall a b c, P [a; b; c]) ->
  (forall a b c d r, P r -> P (a :: b :: c :: d :: r)) -> forall l, P l.
Proof.
  intros H0 H1 H2 H3 H4 l.
  assert (forall n l, (List.length l <= n)%nat -> P l) as G; [|now apply (G (List.length l))].
  clear l. induction n as [|n IH]; intros l Hl.
  - destruct l; [assumption|simpl in Hl; lia].
  - destruct l as [|a [|b [|c [|d r]]]]; auto. apply H4. apply IH. simpl in Hl. lia.
Qed.

Lemma b64_char_inv c : is_b64_char c = true -> exists v, v < 64 /\ c = b64_char v /\ b64_val c = Some v.
Proof.
  intros H. apply is_b64_char_val in H as [v Hv]. exists v.
  split; [now apply b64_val_range in Hv|]. split; [|assumption]. symmetry. now apply b64_char_val.
Qed.

Lemma canon64_encoded s : canon64 s -> exists b, is_bytes b /\ s = b64encode b.
Proof.
  intros (d & k & -> & Hd & Hm & Hk). unfold is_bytes.
  induction d as [|x|x y|x y z|x y z u r IH] using list4_ind; cbn [List.length] in Hm.
  - exists []. assert (k = 0)%nat as -> by lia. split; [constructor|reflexivity].
  - exfalso. lia.
  - assert (k = 2)%nat as -> by lia. destruct Hk as [Hk|[[Hk _]|[_ Hk]]]; [discriminate|discriminate|].
    cbn [forallb] in Hd. apply andb_true_iff in Hd as [Hx Hd]. apply andb_true_iff in Hd as [Hy _].
    destruct (b64_char_inv x Hx) as (v & Hv & -> & _).
    destruct (b64_char_inv y Hy) as (v' & Hv' & -> & Ev').
    unfold last_val in Hk. cbn [last] in Hk. rewrite Ev' in Hk.
    exists [v * 4 + v' / 16]. split; [constructor; [lia|constructor]|].
    cbn [b64encode app repeat].
    replace ((v * 4 + v' / 16) / 4) with v by lia.
    replace (((v * 4 + v' / 16) mod 4) * 16) with v' by lia. reflexivity.
  - assert (k = 1)%nat as -> by lia. destruct Hk as [Hk|[[_ Hk]|[Hk _]]]; [discriminate| |discriminate].
    cbn [forallb] in Hd. apply andb_true_iff in Hd as [Hx Hd]. apply andb_true_iff in Hd as [Hy Hd].
    apply andb_true_iff in Hd as [Hz _].
    destruct (b64_char_inv x Hx) as (v & Hv & -> & _).
    destruct (b64_char_inv y Hy) as (v' & Hv' & -> & _).
    destruct (b64_char_inv z Hz) as (v2 & Hv2 & -> & Ev2).
    unfold last_val in Hk. cbn [last] in Hk. rewrite Ev2 in Hk.
    exists [v * 4 + v' / 16; (v' mod 16) * 16 + v2 / 4].
    split; [constructor; [lia|constructor; [lia|constructor]]|].
    cbn [b64encode app repeat].
    replace ((v * 4 + v' / 16) / 4) with v by lia.
    replace (((v * 4 + v' / 16) mod 4) * 16 + ((v' mod 16) * 16 + v2 / 4) / 16) with v' by lia.
    replace ((((v' mod 16) * 16 + v2 / 4) mod 16) * 4) with v2 by lia. reflexivity.
  - cbn [forallb] in Hd. apply andb_true_iff in Hd as [Hx Hd]. apply andb_true_iff in Hd as [Hy Hd].
    apply andb_true_iff in Hd as [Hz Hd]. apply andb_true_iff in Hd as [Hu Hd].
    destruct IH as (b & Hb & Eb); [assumption|lia| |].
    { destruct r as [|r0 r].
      - left. cbn [List.length] in Hm. clear -Hm Hk. destruct Hk as [Hk|[[Hk _]|[Hk _]]]; [assumption|subst k; discriminate|subst k; discriminate].
      - unfold last_val in *. cbn [last] in Hk. exact Hk. }
    destruct (b64_char_inv x Hx) as (v & Hv & -> & _).
    destruct (b64_char_inv y Hy) as (v' & Hv' & -> & _).
    destruct (b64_char_inv z Hz) as (v2 & Hv2 & -> & _).
    destruct (b64_char_inv u Hu) as (v3 & Hv3 & -> & _).
    exists (v * 4 + v' / 16 :: (v' mod 16) * 16 + v2 / 4 :: (v2 mod 4) * 64 + v3 :: b).
    split; [repeat (constructor; [lia|]); assumption|].
    cbn [b64encode app]. rewrite <- Eb.
    replace ((v * 4 + v' / 16) / 4) with v by lia.
    replace (((v * 4 + v' / 16) mod 4) * 16 + ((v' mod 16) * 16 + v2 / 4) / 16) with v' by lia.
    replace ((((v' mod 16) * 16 + v2 / 4) mod 16) * 4 + ((v2 mod 4) * 64 + v3) / 64) with v2 by lia.
    replace (((v2 mod 4) * 64 + v3) mod 64) with v3 by lia. reflexivity.
Qed.

Lemma b64encode_canon b : is_bytes b -> canon64 (b64encode b).
Proof.
  unfold is_bytes, canon64. induction b as [|a|a b|a b c r IH] using list3_ind; intros H.
  - exists [], 0%nat. repeat split. now left.
  - inversion H; subst. exists [b64_char (a / 4); b64_char ((a mod 4) * 16)], 2%nat.
    split; [reflexivity|]. split; [cbn [forallb]; now rewrite !b64_char_is|]. split; [reflexivity|].
    right; right. split; [reflexivity|]. unfold last_val. cbn [last]. rewrite b64_val_char by lia. lia.
  - inversion H as [|? ? Ha H']; subst. inversion H'; subst.
    exists [b64_char (a / 4); b64_char ((a mod 4) * 16 + b / 16); b64_char ((b mod 16) * 4)], 1%nat.
    split; [reflexivity|]. split; [cbn [forallb]; now rewrite !b64_char_is|]. split; [reflexivity|].
    right; left. split; [reflexivity|]. unfold last_val. cbn [last]. rewrite b64_val_char by lia. lia.
  - inversion H as [|? ? Ha H1]; subst. inversion H1 as [|? ? Hb H2]; subst.
    inversion H2 as [|? ? Hc H3]; subst.
    destruct (IH H3) as (d & k & E & Hd & Hm & Hk).
    exists (b64_char (a / 4) :: b64_char ((a mod 4) * 16 + b / 16)
      :: b64_char ((b mod 16) * 4 + c / 64) :: b64_char (c mod 64) :: d), k.
    cbn [b64encode]. rewrite E. split; [reflexivity|].
    split; [cbn [forallb]; now rewrite !b64_char_is|]. split; [cbn [List.length]; lia|].
    destruct d as [|d0 d].
    + cbn [List.length] in Hm. left. lia.
    + unfold last_val in *. cbn [last]. exact Hk.
Qed.

(** Re-encoding a decoded text gives the text exactly if it was canonical. *)
Theorem b64_reencode s b : b64decode s = Ok b -> (b64encode b = s <-> canon64 s).
Proof.
  intros H. pose proof (b64decode_bytes s b H) as Hb. split.
  - intros <-. now apply b64encode_canon.
  - intros C. destruct (canon64_encoded s C) as (b' & Hb' & ->).
    rewrite b64decode_encode in H by assumption. now injection H as ->.
Qed.

(** Canonical texts decode. *)
Theorem canon64_decodes s : canon64 s -> exists b, b64decode s = Ok b.
Proof.
  intros C. destruct (canon64_encoded s C) as (b & Hb & ->). exists b. now apply b64decode_encode.
Qed.

(** The encoder is injective. *)
Theorem b64encode_inj a b : is_bytes a -> is_bytes b -> b64encode a = b64encode b -> a = b.
Proof.
  intros Ha Hb E. apply b64decode_encode in Ha, Hb. rewrite E in Ha. congruence.
Qed.

Theorem b64url_nopad_inj a b : is_bytes a -> is_bytes b -> b64url_nopad a = b64url_nopad b -> a = b.
Proof.
  intros Ha Hb E. apply urlsafe_decode_nopad in Ha as (t & H1 & H2), Hb as (t' & H3 & H4).
  rewrite E in H1. congruence.
Qed.

(** Restoring the padding of an encoding: nothing happens if it is there. *)
Theorem restore_padding_padded b : restoreb64padding (urlsafe_b64encode b) = urlsafe_b64encode b.
Proof.
  destruct (urlsafe_shape b) as (d & k & E & _ & _ & Hm & _).
  unfold restoreb64padding. rewrite E, app_length, repeat_length, Hm. reflexivity.
Qed.

(** ** Url safe decoding after restoring the padding *)

(** Acceptance by the composition used for all segments of a JWS. *)
Definition b64url_text (s : str) : Prop :=
  exists d k nl, restoreb64padding s = d ++ repeat c_eq k ++ nl
    /\ forallb is_b64url_char d = true /\ (k <= 3)%nat /\ opt_nl nl /\ b64_good (List.length d) k.

Lemma from_urlsafe_char c : is_b64url_char c = true -> is_b64_char (from_urlsafe c) = true.
Proof.
  unfold is_b64url_char, is_b64_char, from_urlsafe, is_az, is_AZ, is_09, c_us, c_dash, c_slash, c_plus.
  intros H. destruct (c =? 45) eqn:E1; [reflexivity|]. destruct (c =? 95) eqn:E2; [reflexivity|]. lia.
Qed.

Lemma map_from_urlsafe_parts d k nl :
  opt_nl nl ->
  map from_urlsafe (d ++ repeat c_eq k ++ nl) = map from_urlsafe d ++ repeat c_eq k ++ nl.
Proof.
  intros Hn. rewrite !map_app, map_repeat. change (from_urlsafe c_eq) with c_eq.
  destruct Hn as [->| ->]; reflexivity.
Qed.

Lemma b64url_parts_ascii d k nl :
  forallb is_b64url_char d = true -> opt_nl nl -> Forall (fun c => c < 128) (d ++ repeat c_eq k ++ nl).
Proof.
  intros Hd Hn. apply Forall_app; split.
  - apply Forall_forall. intros x Hx. rewrite forallb_forall in Hd. apply (is_b64url_char_ascii x (Hd x Hx)).
  - apply Forall_app. split.
    + apply Forall_forall. intros x Hx. apply repeat_spec in Hx. subst. reflexivity.
    + destruct Hn as [->| ->]; repeat constructor.
Qed.

Theorem urlsafe_b64decode_accepts s :
  (exists b, urlsafe_b64decode s = Ok b) <->
  exists d k nl, s = d ++ repeat c_eq k ++ nl
    /\ forallb is_b64url_char d = true /\ (k <= 3)%nat /\ opt_nl nl /\ b64_good (List.length d) k.
Proof.
  unfold urlsafe_b64decode. split.
  - intros [b H]. apply bind_Ok in H as (t & Ht & H).
    destruct (re_match urlsafe_b64Regex t) eqn:R; [|discriminate].
    apply urlsafe_b64Regex_spec in R as (d & k & nl & -> & Hd & Hk & Hn).
    apply utf8_encode_decode in Ht.
    rewrite utf8_encode_ascii in Ht by now apply b64url_parts_ascii.
    injection Ht as <-. exists d, k, nl. repeat split; try assumption.
    rewrite map_from_urlsafe_parts in H by assumption.
    assert (exists r, a2b 0 0 0 (map from_urlsafe d ++ repeat c_eq k ++ nl) = Ok r) as G by eauto.
    apply a2b_all in G as [l G]; [| |lia].
    2: { apply forallb_forall. intros x Hx. apply in_map_iff in Hx as (y & <- & Hy).
         rewrite forallb_forall in Hd. now apply from_urlsafe_char, Hd. }
    rewrite Nat.add_0_l, map_length in G.
    pose proof (Nat.mod_upper_bound (List.length d) 4). apply a2b_pads in G; [|lia|assumption].
    exact G.
  - intros (d & k & nl & -> & Hd & Hk & Hn & G).
    rewrite utf8_decode_ascii by now apply b64url_parts_ascii. cbn [bind].
    replace (re_match urlsafe_b64Regex (d ++ repeat c_eq k ++ nl)) with true.
    2: { symmetry. apply urlsafe_b64Regex_spec. eauto 10. }
    rewrite map_from_urlsafe_parts by assumption.
    apply a2b_all; [|lia|].
    + apply forallb_forall. intros x Hx. apply in_map_iff in Hx as (y & <- & Hy).
      rewrite forallb_forall in Hd. now apply from_urlsafe_char, Hd.
    + rewrite Nat.add_0_l, map_length. exists 0.
      apply a2b_pads; [|assumption|exact G]. apply Nat.mod_upper_bound. lia.
Qed.

(** ** Which exceptions the decoders raise *)

Lemma a2b_err s : forall qp left pads e, a2b qp left pads s = Err e -> e = PyBinasciiError.
Proof.
  induction s as [|c s IH]; intros qp left pads e H.
  - destruct qp; cbn in H; congruence.
  - cbn [a2b] in H. destruct (c =? c_eq).
    + destruct qp as [|[|qp]]; [now apply IH in H|now apply IH in H|].
      destruct (4 <=? N.of_nat (S (S qp)) + (pads + 1)); [discriminate|now apply IH in H].
    + destruct (b64_val c) as [v|]; [|now apply IH in H].
      destruct qp as [|[|[|qp]]]; [now apply IH in H| | |];
        (apply bind_Err in H as [H|(t & _ & H)]; [now apply IH in H|discriminate]).
Qed.

Lemma utf8_encode_err s e : utf8_encode s = Err e -> e = PyUnicodeEncodeError.
Proof.
  induction s as [|c s IH]; simpl; intros H; [discriminate|].
  destruct (utf8_char c); [|congruence].
  destruct (utf8_encode s); [discriminate|]. apply IH. congruence.
Qed.

Lemma b64decode_utf8_err s b e :
  utf8_encode s = Ok b -> b64decode b = Err e -> e = PyTypeError \/ e = PyBinasciiError.
Proof.
  intros Hs H. unfold b64decode in H. rewrite (utf8_decode_encode s b Hs) in H. cbn [bind] in H.
  destruct (re_match b64Regex s); [right; now apply a2b_err in H|left; congruence].
Qed.

Lemma urlsafe_b64decode_utf8_err s b e :
  utf8_encode s = Ok b -> urlsafe_b64decode b = Err e -> e = PyTypeError \/ e = PyBinasciiError.
Proof.
  intros Hs H. unfold urlsafe_b64decode in H. rewrite (utf8_decode_encode s b Hs) in H. cbn [bind] in H.
  destruct (re_match urlsafe_b64Regex s); [right; now apply a2b_err in H|left; congruence].
Qed.

Lemma utf8_decode_err b e : utf8_decode b = Err e -> e = PyUnicodeDecodeError.
Proof.
  revert e. assert (forall n b, (List.length b <= n)%nat -> forall e, utf8_decode b = Err e -> e = PyUnicodeDecodeError) as G.
  2: intros e H; now apply (G (List.length b) b).
  clear b. induction n as [|n IH]; intros b Hn e H.
  { destruct b; simpl in Hn; [|lia]. discriminate. }
  destruct b as [|b0 r0]; [discriminate|]. cbn [utf8_decode] in H. cbn [List.length] in Hn.
  assert (forall A r (f : str -> result A) x, (List.length r <= n)%nat ->
            (forall y, f y <> Err x) -> bind (utf8_decode r) f = Err x -> x = PyUnicodeDecodeError) as B.
  { intros A r f x Hr Hf Hb. apply bind_Err in Hb as [Hb|(a & _ & Hb)]; [now apply IH in Hb|].
    exfalso. now apply (Hf a). }
  destruct (b0 <? 128); [eapply B in H; [exact H|lia|discriminate]|].
  destruct (b0 <? 194); [congruence|].
  destruct r0 as [|b1 r1]; [congruence|]. cbn [List.length] in Hn.
  destruct (negb (is_cont b1)); [congruence|].
  destruct (b0 <? 224); [eapply B in H; [exact H|lia|discriminate]|].
  destruct r1 as [|b2 r2]; [congruence|]. cbn [List.length] in Hn.
  destruct (negb (is_cont b2)); [congruence|].
  destruct (b0 <? 240).
  { cbv zeta in H. match type of H with context [if ?c then _ else _] => destruct c end; [congruence|].
    eapply B in H; [exact H|lia|discriminate]. }
  destruct r2 as [|b3 r3]; [congruence|]. cbn [List.length] in Hn.
  match type of H with context [if ?c then _ else _] => destruct c end; [congruence|].
  cbv zeta in H. match type of H with context [if ?c then _ else _] => destruct c end; [congruence|].
  eapply B in H; [exact H|lia|discriminate].
Qed.
