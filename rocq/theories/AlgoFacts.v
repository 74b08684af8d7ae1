(** Turnover counter encryption. *)
From Coq Require Import Lia ZifyClasses ZifyN ZifyNat ZifyBool.
From Verif Require Import PyBase World Regex Codec Algo ListFacts.
Open Scope N_scope.
Open Scope py_scope.

Lemma fold_be acc b :
  fold_left (fun acc x => acc * 256 + x) b acc
  = acc * 256 ^ N.of_nat (List.length b) + be_val b.
Proof.
  unfold be_val. revert acc. induction b as [|x b IH]; intros acc.
  - cbn [fold_left List.length]. rewrite N.pow_0_r. lia.
  - cbn [fold_left List.length]. rewrite (IH (acc * 256 + x)), (IH (0 * 256 + x)).
    rewrite Nat2N.inj_succ, N.pow_succ_r by lia. lia.
Qed.

Lemma be_val_app a b : be_val (a ++ b) = be_val a * 256 ^ N.of_nat (List.length b) + be_val b.
Proof. unfold be_val. rewrite fold_left_app. apply fold_be. Qed.

Lemma be_bytes_length n v : List.length (be_bytes n v) = n.
Proof.
  revert v. induction n as [|n IH]; intros v; [reflexivity|].
  cbn [be_bytes]. rewrite app_length, IH. simpl. lia.
Qed.

Lemma be_bytes_is_bytes n v : is_bytes (be_bytes n v).
Proof.
  unfold is_bytes. revert v. induction n as [|n IH]; intros v; [constructor|].
  cbn [be_bytes]. apply Forall_app. split; [apply IH|]. constructor; [|constructor].
  apply N.mod_lt. lia.
Qed.

Lemma be_val_bytes n v : be_val (be_bytes n v) = v mod 256 ^ N.of_nat n.
Proof.
  revert v. induction n as [|n IH]; intros v.
  - cbn. symmetry. apply N.mod_1_r.
  - cbn [be_bytes]. rewrite be_val_app, IH. cbn [List.length].
    change (256 ^ N.of_nat 1) with 256. change (be_val [v mod 256]) with (0 * 256 + v mod 256).
    rewrite Nat2N.inj_succ, N.pow_succ_r by lia.
    rewrite (N.mod_mul_r v 256 (256 ^ N.of_nat n)) by (try lia; apply N.pow_nonzero; lia). lia.
Qed.

Lemma be_val_bound b : is_bytes b -> be_val b < 256 ^ N.of_nat (List.length b).
Proof.
  unfold is_bytes. induction b as [|x b IH] using rev_ind; intros H; [reflexivity|].
  apply Forall_app in H as [Hb Hx]. inversion Hx; subst.
  rewrite be_val_app, app_length. cbn [List.length]. change (256 ^ N.of_nat 1) with 256.
  change (be_val [x]) with (0 * 256 + x). rewrite Nat.add_comm. cbn [Nat.add].
  rewrite Nat2N.inj_succ, N.pow_succ_r by lia. specialize (IH Hb). lia.
Qed.

Lemma be_val_inj a b :
  is_bytes a -> is_bytes b -> List.length a = List.length b -> be_val a = be_val b -> a = b.
Proof.
  unfold is_bytes. revert b. induction a as [|x a IH] using rev_ind; intros b Ha Hb Hl Hv.
  - destruct b; [reflexivity|discriminate].
  - destruct b as [|y b _] using rev_ind; [rewrite app_length in Hl; simpl in Hl; lia|].
    apply Forall_app in Ha as [Ha Hx], Hb as [Hb Hy]. inversion Hx; inversion Hy; subst.
    rewrite !app_length in Hl. cbn [List.length] in Hl.
    rewrite !be_val_app in Hv. cbn [List.length] in Hv. change (256 ^ N.of_nat 1) with 256 in Hv.
    change (be_val [x]) with (0 * 256 + x) in Hv. change (be_val [y]) with (0 * 256 + y) in Hv.
    f_equal; [apply IH; try assumption; lia|f_equal; lia].
Qed.

Lemma pow256_N n : pow256 n = Z.of_N (256 ^ N.of_nat n).
Proof. unfold pow256. rewrite N2Z.inj_pow. now rewrite nat_N_Z. Qed.

Lemma pow256_pos n : (0 < pow256 n)%Z.
Proof. unfold pow256. apply Z.pow_pos_nonneg; lia. Qed.

(** Values that fit into [size] bytes as signed integers. *)
Definition fits (z : Z) (size : nat) : Prop := (- pow256 size <= 2 * z < pow256 size)%Z.

Lemma to_bytes_fits z size : fits z size <-> exists b, to_bytes z size = Ok b.
Proof.
  unfold fits, to_bytes.
  destruct ((- pow256 size <=? 2 * z) && (2 * z <? pow256 size))%Z eqn:E.
  - split; [eauto|lia].
  - split; [lia|]. intros [b H]. discriminate.
Qed.

Lemma to_bytes_err z size e : to_bytes z size = Err e -> e = PyOverflowError /\ ~ fits z size.
Proof.
  unfold to_bytes, fits. destruct ((- pow256 size <=? 2 * z) && (2 * z <? pow256 size))%Z eqn:E;
    intros H; [discriminate|]. split; [congruence|lia].
Qed.

Lemma to_bytes_length z size b : to_bytes z size = Ok b -> List.length b = size /\ is_bytes b.
Proof.
  unfold to_bytes. destruct ((- pow256 size <=? 2 * z) && (2 * z <? pow256 size))%Z; [|discriminate].
  intros H. injection H as <-. split; [apply be_bytes_length|apply be_bytes_is_bytes].
Qed.

Theorem from_to_bytes z size b : to_bytes z size = Ok b -> from_bytes b = z.
Proof.
  intros H. pose proof (to_bytes_length z size b H) as [L _].
  assert (fits z size) as F by (apply to_bytes_fits; eauto). unfold fits in F.
  unfold to_bytes in H.
  destruct ((- pow256 size <=? 2 * z) && (2 * z <? pow256 size))%Z; [|discriminate].
  apply Ok_inj in H. subst b. unfold from_bytes. rewrite L, be_val_bytes.
  pose proof (pow256_pos size) as P. pose proof (Z.mod_pos_bound z (pow256 size) P) as M.
  rewrite N.mod_small by (rewrite pow256_N in *; lia).
  rewrite Z2N.id by lia.
  destruct (Z.leb_spec 0 z) as [Hz|Hz].
  - rewrite Z.mod_small by lia.
    destruct (Z.leb_spec (pow256 size) (2 * z)); lia.
  - replace (z mod pow256 size)%Z with (z + pow256 size)%Z.
    + destruct (Z.leb_spec (pow256 size) (2 * (z + pow256 size))); lia.
    + rewrite <- (Z.mod_add z 1 (pow256 size)) by lia. rewrite Z.mul_1_l.
      symmetry. apply Z.mod_small. lia.
Qed.

Lemma from_bytes_inj a b :
  is_bytes a -> is_bytes b -> List.length a = List.length b -> from_bytes a = from_bytes b -> a = b.
Proof.
  intros Ha Hb Hl H. apply be_val_inj; try assumption.
  unfold from_bytes in H. rewrite Hl in H.
  pose proof (be_val_bound a Ha) as Ba. pose proof (be_val_bound b Hb) as Bb. rewrite Hl in Ba.
  rewrite pow256_N in H.
  destruct (Z.leb_spec (Z.of_N (256 ^ N.of_nat (List.length b))) (2 * Z.of_N (be_val a)));
  destruct (Z.leb_spec (Z.of_N (256 ^ N.of_nat (List.length b))) (2 * Z.of_N (be_val b))); lia.
Qed.

(** A decrypted counter of n bytes fits into n bytes. *)
Lemma from_bytes_fits b : is_bytes b -> fits (from_bytes b) (List.length b).
Proof.
  intros H. apply be_val_bound in H. unfold fits, from_bytes. rewrite pow256_N.
  destruct (Z.leb_spec (Z.of_N (256 ^ N.of_nat (List.length b))) (2 * Z.of_N (be_val b))); lia.
Qed.

(** ** CTR mode *)

Lemma xor_bytes_length a b : (List.length a <= List.length b)%nat -> List.length (xor_bytes a b) = List.length a.
Proof.
  revert b. induction a as [|x a IH]; intros [|y b] H; simpl in *; try lia. rewrite IH; lia.
Qed.

Lemma xor_bytes_invol a b : (List.length a <= List.length b)%nat -> xor_bytes (xor_bytes a b) b = a.
Proof.
  revert b. induction a as [|x a IH]; intros [|y b] H; simpl in *; try reflexivity; try lia.
  rewrite N.lxor_assoc, N.lxor_nilpotent, N.lxor_0_r. f_equal. apply IH. lia.
Qed.

Lemma lxor_byte x y : x < 256 -> y < 256 -> N.lxor x y < 256.
Proof.
  intros Hx Hy. destruct (N.eq_dec (N.lxor x y) 0) as [->|Hn]; [lia|].
  change 256 with (2 ^ 8). apply N.log2_lt_pow2; [lia|].
  pose proof (N.log2_lxor x y) as L.
  assert (forall z, z < 256 -> N.log2 z < 8) as B.
  { intros z Hz. destruct (N.eq_dec z 0) as [->|Hz0]; [reflexivity|].
    apply N.log2_lt_pow2; [lia|]. exact Hz. }
  pose proof (B x Hx). pose proof (B y Hy). lia.
Qed.

Lemma xor_bytes_bytes a b : is_bytes a -> is_bytes b -> is_bytes (xor_bytes a b).
Proof.
  unfold is_bytes. revert b. induction a as [|x a IH]; intros [|y b] Ha Hb; simpl; try constructor.
  - inversion Ha; inversion Hb; subst. now apply lxor_byte.
  - inversion Ha; inversion Hb; subst. now apply IH.
Qed.

Lemma ctr_stream_length w key iv n :
  aes_ok w -> List.length (ctr_stream w key iv n) = (16 * n)%nat /\ is_bytes (ctr_stream w key iv n).
Proof.
  intros H. revert iv. induction n as [|n IH]; intros iv; cbn [ctr_stream].
  - split; [reflexivity|constructor].
  - destruct (H key iv) as [L B]. destruct (IH (ctr_inc iv)) as [L' B'].
    split; [rewrite app_length, L, L'; lia|apply Forall_app; now split].
Qed.

Lemma ctr_enough w key iv n : aes_ok w -> (n <= List.length (ctr_stream w key iv (S (n / 16))))%nat.
Proof.
  intros H. destruct (ctr_stream_length w key iv (S (n / 16)) H) as [-> _].
  pose proof (Nat.div_mod n 16 ltac:(lia)). pose proof (Nat.mod_upper_bound n 16 ltac:(lia)). lia.
Qed.

Lemma aes256ctr_length w iv key d : aes_ok w -> List.length (aes256ctr w iv key d) = List.length d.
Proof. intros H. unfold aes256ctr. apply xor_bytes_length. now apply ctr_enough. Qed.

Lemma aes256ctr_bytes w iv key d : aes_ok w -> is_bytes d -> is_bytes (aes256ctr w iv key d).
Proof.
  intros H Hd. unfold aes256ctr. apply xor_bytes_bytes; [assumption|].
  now apply ctr_stream_length.
Qed.

Theorem aes256ctr_invol w iv key d : aes_ok w -> aes256ctr w iv key (aes256ctr w iv key d) = d.
Proof.
  intros H. unfold aes256ctr at 1. rewrite aes256ctr_length by assumption. unfold aes256ctr.
  apply xor_bytes_invol. now apply ctr_enough.
Qed.

Lemma aes256ctr_inj w iv key a b :
  aes_ok w -> aes256ctr w iv key a = aes256ctr w iv key b -> a = b.
Proof.
  intros H E. rewrite <- (aes256ctr_invol w iv key a H), E. now apply aes256ctr_invol.
Qed.

(** ** Encryption of turnover counters *)

Theorem decrypt_encrypt w registerId receiptId counter key size ct :
  aes_ok w ->
  r1_encrypt w registerId receiptId counter key size = Ok ct ->
  r1_decrypt w registerId receiptId ct key = Ok counter /\ List.length ct = size /\ is_bytes ct.
Proof.
  intros A H. unfold r1_encrypt in H. apply bind_Ok in H as (iv & Hiv & H).
  apply bind_Ok in H as (pt & Hpt & H). apply Ok_inj in H. subst ct.
  destruct (to_bytes_length _ _ _ Hpt) as [L B].
  unfold r1_decrypt. rewrite Hiv. cbn [bind]. rewrite aes256ctr_invol by assumption.
  split; [f_equal; now apply (from_to_bytes counter size)|].
  split; [now rewrite aes256ctr_length|now apply aes256ctr_bytes].
Qed.

Theorem encrypt_ok_iff w registerId receiptId counter key size a b :
  utf8_encode registerId = Ok a -> utf8_encode receiptId = Ok b ->
  (fits counter size -> exists ct, r1_encrypt w registerId receiptId counter key size = Ok ct) /\
  (~ fits counter size -> r1_encrypt w registerId receiptId counter key size = Err PyOverflowError).
Proof.
  intros Ha Hb. unfold r1_encrypt, r1_iv. rewrite Ha, Hb. cbn [bind]. split.
  - intros F. apply to_bytes_fits in F as (pt & ->). cbn [bind]. eauto.
  - intros F. destruct (to_bytes counter size) as [pt|e] eqn:E.
    + exfalso. apply F. apply to_bytes_fits. eauto.
    + apply to_bytes_err in E as [-> _]. reflexivity.
Qed.

(** Two ciphertexts of the same length which decrypt to the same counter are equal. *)
Theorem decrypt_inj w registerId receiptId ct ct' key z :
  aes_ok w -> is_bytes ct -> is_bytes ct' -> List.length ct = List.length ct' ->
  r1_decrypt w registerId receiptId ct key = Ok z ->
  r1_decrypt w registerId receiptId ct' key = Ok z -> ct = ct'.
Proof.
  intros A B B' L H H'. unfold r1_decrypt in *.
  apply bind_Ok in H as (iv & Hiv & H), H' as (iv' & Hiv' & H').
  rewrite Hiv in Hiv'. injection Hiv' as <-.
  apply (aes256ctr_inj w iv key); [assumption|].
  apply from_bytes_inj; try now apply aes256ctr_bytes.
  - now rewrite !aes256ctr_length.
  - congruence.
Qed.
