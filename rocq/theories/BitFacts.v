(** Proofs that the encodings are those of the standards. *)
From Coq Require Import Lia ZifyClasses ZifyN ZifyNat ZifyBool.
From Verif Require Import PyBase World Regex Codec ListFacts CodecFacts SpecCodec.
Open Scope N_scope.
Local Ltac Zify.zify_post_hook ::= Z.div_mod_to_equations.

Lemma bits_length n : forall v, List.length (bits n v) = n.
Proof. induction n as [|n IH]; intros v; [reflexivity|]. cbn [bits]. rewrite app_length, IH. cbn [List.length]. lia. Qed.

Lemma bits_app m n : forall x y, y < 2 ^ N.of_nat n -> bits (m + n) (x * 2 ^ N.of_nat n + y) = bits m x ++ bits n y.
Proof.
  induction n as [|n IH]; intros x y L.
  - replace (m + 0)%nat with m by lia. cbn [bits]. rewrite app_nil_r. f_equal. change (2 ^ N.of_nat 0) with 1 in *. lia.
  - replace (m + S n)%nat with (S (m + n)) by lia. cbn [bits].
    assert (2 ^ N.of_nat (S n) = 2 * 2 ^ N.of_nat n) as P by (rewrite Nat2N.inj_succ, N.pow_succ_r'; reflexivity).
    rewrite P in *. rewrite app_assoc. f_equal.
    + rewrite <- IH by (apply N.div_lt_upper_bound; lia). f_equal.
      replace (x * (2 * 2 ^ N.of_nat n) + y) with (y + (x * 2 ^ N.of_nat n) * 2) by lia. rewrite N.div_add by discriminate. lia.
    + f_equal. rewrite N.odd_add, !N.odd_mul. now rewrite !andb_false_r, xorb_false_l.
Qed.
Lemma bits_zero n : bits n 0 = repeat false n.
Proof. induction n as [|n IH]; [reflexivity|]. cbn [bits]. change (0 / 2) with 0. rewrite IH. change (N.odd 0) with false. now rewrite <- repeat_cons. Qed.
Lemma bits_split m n v : v < 2 ^ N.of_nat (m + n) -> bits (m + n) v = bits m (v / 2 ^ N.of_nat n) ++ bits n (v mod 2 ^ N.of_nat n).
Proof.
  intros L. rewrite <- bits_app by (apply N.mod_lt, N.pow_nonzero; discriminate). f_equal.
  pose proof (N.div_mod v (2 ^ N.of_nat n) ltac:(apply N.pow_nonzero; discriminate)). lia.
Qed.
Lemma bits_inj n : forall a b, a < 2 ^ N.of_nat n -> b < 2 ^ N.of_nat n -> bits n a = bits n b -> a = b.
Proof.
  induction n as [|n IH]; intros a b A B E.
  - change (2 ^ N.of_nat 0) with 1 in *. lia.
  - assert (2 ^ N.of_nat (S n) = 2 * 2 ^ N.of_nat n) as P by (rewrite Nat2N.inj_succ, N.pow_succ_r'; reflexivity).
    rewrite P in *. cbn [bits] in E. apply app_inj_tail in E as [E O]. apply IH in E; [|apply N.div_lt_upper_bound; lia|apply N.div_lt_upper_bound; lia].
    rewrite (N.div2_odd a), (N.div2_odd b), !N.div2_div, E, O. reflexivity.
Qed.

(** ** Base 64 and 32 *)
Lemma b64_char_nth d : d < 64 -> b64_char d = nth (N.to_nat d) alphabet64 0.
Proof.
  intros L. assert (forallb (fun d => b64_char d =? nth (N.to_nat d) alphabet64 0) (map N.of_nat (List.seq 0 64)) = true) as H by (vm_compute; reflexivity).
  rewrite forallb_forall in H. apply N.eqb_eq, H, in_map_iff. exists (N.to_nat d). split; [lia|]. apply in_seq. lia.
Qed.
Lemma b64url_char_nth d : d < 64 -> to_urlsafe (b64_char d) = nth (N.to_nat d) alphabet64url 0.
Proof.
  intros L. assert (forallb (fun d => to_urlsafe (b64_char d) =? nth (N.to_nat d) alphabet64url 0) (map N.of_nat (List.seq 0 64)) = true) as H by (vm_compute; reflexivity).
  rewrite forallb_forall in H. apply N.eqb_eq, H, in_map_iff. exists (N.to_nat d). split; [lia|]. apply in_seq. lia.
Qed.
Lemma b32_char_nth d : d < 32 -> b32_char d = nth (N.to_nat d) alphabet32 0.
Proof.
  intros L. assert (forallb (fun d => b32_char d =? nth (N.to_nat d) alphabet32 0) (map N.of_nat (List.seq 0 32)) = true) as H by (vm_compute; reflexivity).
  rewrite forallb_forall in H. apply N.eqb_eq, H, in_map_iff. exists (N.to_nat d). split; [lia|]. apply in_seq. lia.
Qed.

Lemma bits_join m n x y : y < 2 ^ N.of_nat n -> bits (m + n) (x * 2 ^ N.of_nat n + y) = bits m x ++ bits n y.
Proof. apply bits_app. Qed.
Lemma s62 a : a < 256 -> bits 8 a = bits 6 (a / 4) ++ bits 2 (a mod 4).
Proof. exact (bits_split 6 2 a). Qed.
Lemma s44 a : a < 256 -> bits 8 a = bits 4 (a / 16) ++ bits 4 (a mod 16).
Proof. exact (bits_split 4 4 a). Qed.
Lemma s26 a : a < 256 -> bits 8 a = bits 2 (a / 64) ++ bits 6 (a mod 64).
Proof. exact (bits_split 2 6 a). Qed.
Lemma j24 x y : y < 16 -> bits 6 (x * 16 + y) = bits 2 x ++ bits 4 y.
Proof. exact (bits_app 2 4 x y). Qed.
Lemma j42 x y : y < 4 -> bits 6 (x * 4 + y) = bits 4 x ++ bits 2 y.
Proof. exact (bits_app 4 2 x y). Qed.

Lemma b64_digits_fuel n : forall l, (List.length l <= n)%nat -> is_bytes l -> exists digits fill pads,
  b64encode l = map b64_char digits ++ repeat c_eq pads
  /\ Forall (fun d => d < 64) digits
  /\ flat_map (bits 6) digits = flat_map (bits 8) l ++ repeat false fill /\ (fill < 6)%nat
  /\ Nat.modulo (List.length digits + pads) 4 = 0%nat /\ (pads < 4)%nat.
Proof.
  induction n as [|n IH]; intros [|a [|b [|c l]]] L B; try (cbn [List.length] in L; lia).
  1, 2: exists [], 0%nat, 0%nat; repeat split; try lia; constructor.
  all: unfold is_bytes in B; repeat match goal with H : Forall _ (_ :: _) |- _ => apply Forall_cons_iff in H; destruct H end.
  - exists [a / 4; a mod 4 * 16], 4%nat, 2%nat. split; [reflexivity|]. split; [repeat constructor; lia|].
    split; [|repeat split; lia]. cbn [flat_map]. rewrite s62 by assumption.
    replace (a mod 4 * 16) with (a mod 4 * 16 + 0) by lia. rewrite j24 by lia. rewrite bits_zero, !app_nil_r, <- !app_assoc. reflexivity.
  - exists [a / 4; a mod 4 * 16 + b / 16; b mod 16 * 4], 2%nat, 1%nat. split; [reflexivity|]. split; [repeat constructor; lia|].
    split; [|repeat split; lia]. cbn [flat_map]. rewrite s62, s44 by assumption.
    replace (b mod 16 * 4) with (b mod 16 * 4 + 0) by lia. rewrite j24, j42 by lia. rewrite bits_zero, !app_nil_r, <- !app_assoc. reflexivity.
  - destruct (IH l) as (ds & fill & pads & E & F & G & R1 & R2 & R3); [cbn [List.length] in L; lia|assumption|].
    exists (a / 4 :: a mod 4 * 16 + b / 16 :: b mod 16 * 4 + c / 64 :: c mod 64 :: ds), fill, pads.
    split; [cbn [b64encode map app]; now rewrite E|]. split; [repeat (constructor; [lia|]); exact F|].
    split; [|split; [exact R1|split; [cbn [List.length]; lia|exact R3]]].
    cbn [flat_map]. rewrite G, (s62 a), (s44 b), (s26 c) by assumption. rewrite j24, j42 by lia. rewrite <- !app_assoc. reflexivity.
Qed.

Lemma rfc_b64 l : is_bytes l -> rfc4648 6 4 alphabet64 l (b64encode l).
Proof.
  intros B. destruct (b64_digits_fuel _ l (le_n _) B) as (ds & fill & pads & E & F & G & R1 & R2 & R3).
  exists ds, fill, pads. split; [|split; [exact F|split; [exact G|split; [exact R1|split; [|exact R3]]]]].
  - rewrite E. f_equal. apply map_ext_in. intros d Hd. apply b64_char_nth. rewrite Forall_forall in F. now apply F.
  - rewrite E, app_length, map_length, repeat_length. exact R2.
Qed.
Lemma rfc_b64url l : is_bytes l -> rfc4648 6 4 alphabet64url l (urlsafe_b64encode l).
Proof.
  intros B. destruct (b64_digits_fuel _ l (le_n _) B) as (ds & fill & pads & E & F & G & R1 & R2 & R3).
  exists ds, fill, pads. unfold urlsafe_b64encode. split; [|split; [exact F|split; [exact G|split; [exact R1|split; [|exact R3]]]]].
  - rewrite E, map_app, map_map. f_equal; [|clear; induction pads as [|n IH]; [reflexivity|cbn [repeat map]; now rewrite IH]].
    apply map_ext_in. intros d Hd. apply b64url_char_nth. rewrite Forall_forall in F. now apply F.
  - rewrite map_length, E, app_length, map_length, repeat_length. exact R2.
Qed.

Lemma s53 a : a < 256 -> bits 8 a = bits 5 (a / 8) ++ bits 3 (a mod 8).
Proof. exact (bits_split 5 3 a). Qed.
Lemma s251 b : b < 256 -> bits 8 b = bits 2 (b / 64) ++ bits 5 (b / 2 mod 32) ++ bits 1 (b mod 2).
Proof.
  intros L. rewrite (s26 b L). f_equal.
  rewrite (bits_split 5 1 (b mod 64) : b mod 64 < 64 -> bits 6 (b mod 64) = bits 5 (b mod 64 / 2) ++ bits 1 (b mod 64 mod 2)) by lia.
  f_equal; f_equal; lia.
Qed.
Lemma s152 d : d < 256 -> bits 8 d = bits 1 (d / 128) ++ bits 5 (d / 4 mod 32) ++ bits 2 (d mod 4).
Proof.
  intros L. rewrite (bits_split 1 7 d L : bits 8 d = bits 1 (d / 128) ++ bits 7 (d mod 128)). f_equal.
  rewrite (bits_split 5 2 (d mod 128) : d mod 128 < 128 -> bits 7 (d mod 128) = bits 5 (d mod 128 / 4) ++ bits 2 (d mod 128 mod 4)) by lia.
  f_equal; f_equal; lia.
Qed.
Lemma s35 a : a < 256 -> bits 8 a = bits 3 (a / 32) ++ bits 5 (a mod 32).
Proof. exact (bits_split 3 5 a). Qed.
Lemma j32 x y : y < 4 -> bits 5 (x * 4 + y) = bits 3 x ++ bits 2 y.
Proof. exact (bits_app 3 2 x y). Qed.
Lemma j14 x y : y < 16 -> bits 5 (x * 16 + y) = bits 1 x ++ bits 4 y.
Proof. exact (bits_app 1 4 x y). Qed.
Lemma j41 x y : y < 2 -> bits 5 (x * 2 + y) = bits 4 x ++ bits 1 y.
Proof. exact (bits_app 4 1 x y). Qed.
Lemma j23 x y : y < 8 -> bits 5 (x * 8 + y) = bits 2 x ++ bits 3 y.
Proof. exact (bits_app 2 3 x y). Qed.

Lemma b32_digits_fuel n : forall l, (List.length l <= n)%nat -> is_bytes l -> exists digits fill pads,
  b32encode l = map b32_char digits ++ repeat c_eq pads
  /\ Forall (fun d => d < 32) digits
  /\ flat_map (bits 5) digits = flat_map (bits 8) l ++ repeat false fill /\ (fill < 5)%nat
  /\ Nat.modulo (List.length digits + pads) 8 = 0%nat /\ (pads < 8)%nat.
Proof.
  induction n as [|n IH]; intros [|a [|b [|c [|d [|e l]]]]] L B; try (cbn [List.length] in L; lia).
  1, 2: exists [], 0%nat, 0%nat; repeat split; try lia; constructor.
  all: unfold is_bytes in B; repeat match goal with H : Forall _ (_ :: _) |- _ => apply Forall_cons_iff in H; destruct H end.
  - exists [a / 8; a mod 8 * 4], 2%nat, 6%nat. split; [reflexivity|]. split; [repeat constructor; lia|].
    split; [|repeat split; lia]. cbn [flat_map]. rewrite s53 by assumption.
    replace (a mod 8 * 4) with (a mod 8 * 4 + 0) by lia. rewrite j32 by lia. rewrite bits_zero, !app_nil_r, <- !app_assoc. reflexivity.
  - exists [a / 8; a mod 8 * 4 + b / 64; b / 2 mod 32; b mod 2 * 16], 4%nat, 4%nat. split; [reflexivity|]. split; [repeat constructor; lia|].
    split; [|repeat split; lia]. cbn [flat_map]. rewrite (s53 a), (s251 b) by assumption.
    replace (b mod 2 * 16) with (b mod 2 * 16 + 0) by lia. rewrite j32, j14 by lia. rewrite bits_zero, !app_nil_r, <- !app_assoc. reflexivity.
  - exists [a / 8; a mod 8 * 4 + b / 64; b / 2 mod 32; b mod 2 * 16 + c / 16; c mod 16 * 2], 1%nat, 3%nat.
    split; [reflexivity|]. split; [repeat constructor; lia|].
    split; [|repeat split; lia]. cbn [flat_map]. rewrite (s53 a), (s251 b), (s44 c) by assumption.
    replace (c mod 16 * 2) with (c mod 16 * 2 + 0) by lia. rewrite j32, j14, j41 by lia. rewrite bits_zero, !app_nil_r, <- !app_assoc. reflexivity.
  - exists [a / 8; a mod 8 * 4 + b / 64; b / 2 mod 32; b mod 2 * 16 + c / 16; c mod 16 * 2 + d / 128; d / 4 mod 32; d mod 4 * 8], 3%nat, 1%nat.
    split; [reflexivity|]. split; [repeat constructor; lia|].
    split; [|repeat split; lia]. cbn [flat_map]. rewrite (s53 a), (s251 b), (s44 c), (s152 d) by assumption.
    replace (d mod 4 * 8) with (d mod 4 * 8 + 0) by lia. rewrite j32, j14, j41, j23 by lia. rewrite bits_zero, !app_nil_r, <- !app_assoc. reflexivity.
  - destruct (IH l) as (ds & fill & pads & E & F & G & R1 & R2 & R3); [cbn [List.length] in L; lia|assumption|].
    exists (a / 8 :: a mod 8 * 4 + b / 64 :: b / 2 mod 32 :: b mod 2 * 16 + c / 16 :: c mod 16 * 2 + d / 128 :: d / 4 mod 32
            :: d mod 4 * 8 + e / 32 :: e mod 32 :: ds), fill, pads.
    split; [cbn [b32encode map app]; now rewrite E|]. split; [repeat (constructor; [lia|]); exact F|].
    split; [|split; [exact R1|split; [cbn [List.length]; lia|exact R3]]].
    cbn [flat_map]. rewrite G, (s53 a), (s251 b), (s44 c), (s152 d), (s35 e) by assumption. rewrite j32, j14, j41, j23 by lia.
    rewrite <- !app_assoc. reflexivity.
Qed.
Lemma rfc_b32 l : is_bytes l -> rfc4648 5 8 alphabet32 l (b32encode l).
Proof.
  intros B. destruct (b32_digits_fuel _ l (le_n _) B) as (ds & fill & pads & E & F & G & R1 & R2 & R3).
  exists ds, fill, pads. split; [|split; [exact F|split; [exact G|split; [exact R1|split; [|exact R3]]]]].
  - rewrite E. f_equal. apply map_ext_in. intros d Hd. apply b32_char_nth. rewrite Forall_forall in F. now apply F.
  - rewrite E, app_length, map_length, repeat_length. exact R2.
Qed.

(** The standard determines the text. *)
Lemma flat_map_length_k k ds : List.length (flat_map (bits k) ds) = (List.length ds * k)%nat.
Proof. induction ds as [|d ds IH]; [reflexivity|]. cbn [flat_map]. rewrite app_length, bits_length, IH. cbn [List.length]. lia. Qed.
Lemma digits_inj k ds : forall ds', Forall (fun d => d < 2 ^ N.of_nat k) ds -> Forall (fun d => d < 2 ^ N.of_nat k) ds' -> List.length ds = List.length ds' ->
  flat_map (bits k) ds = flat_map (bits k) ds' -> ds = ds'.
Proof.
  induction ds as [|d ds IH]; intros [|d' ds'] F F' L E; try discriminate; [reflexivity|].
  apply Forall_cons_iff in F as [Fd F], F' as [Fd' F']. cbn [flat_map] in E.
  assert (firstn k (bits k d ++ flat_map (bits k) ds) = firstn k (bits k d' ++ flat_map (bits k) ds')) as E1 by now rewrite E.
  assert (skipn k (bits k d ++ flat_map (bits k) ds) = skipn k (bits k d' ++ flat_map (bits k) ds')) as E2 by now rewrite E.
  rewrite !firstn_app, !bits_length, Nat.sub_diag in E1. cbn [firstn] in E1. rewrite !app_nil_r, !firstn_all2 in E1 by (rewrite bits_length; lia).
  rewrite !skipn_app, !bits_length, Nat.sub_diag in E2. cbn [skipn] in E2. rewrite !skipn_all2 in E2 by (rewrite bits_length; lia).
  f_equal; [now apply bits_inj in E1|]. apply IH; try assumption. now injection L.
Qed.
Lemma rfc_unique k q al l t t' : (0 < k)%nat -> (0 < q)%nat -> rfc4648 k q al l t -> rfc4648 k q al l t' -> t = t'.
Proof.
  intros K Q (ds & f & p & E & F & G & R1 & R2 & R3) (ds' & f' & p' & E' & F' & G' & R1' & R2' & R3').
  assert (List.length ds = List.length ds') as L.
  { assert (List.length ds * k = List.length (flat_map (bits 8) l) + f)%nat as A by (rewrite <- flat_map_length_k, G, app_length, repeat_length; reflexivity).
    assert (List.length ds' * k = List.length (flat_map (bits 8) l) + f')%nat as A' by (rewrite <- flat_map_length_k, G', app_length, repeat_length; reflexivity).
    nia. }
  assert (f = f') as <-.
  { apply (f_equal (@List.length bool)) in G, G'. rewrite flat_map_length_k, app_length, repeat_length in G, G'. rewrite L in G. lia. }
  assert (ds = ds') as <- by (apply (digits_inj k); try assumption; congruence).
  rewrite E, E' in *. f_equal. f_equal. rewrite app_length, map_length, repeat_length in R2, R2'.
  apply Nat.mod_divide in R2 as [x X]; [|lia]. apply Nat.mod_divide in R2' as [y Y]; [|lia].
  clear - X Y R3 R3'. destruct (Nat.lt_trichotomy x y) as [Z|[->|Z]]; [|lia|].
  - assert (S x * q <= y * q)%nat by (apply Nat.mul_le_mono_r; lia). rewrite Nat.mul_succ_l in *. lia.
  - assert (S y * q <= x * q)%nat by (apply Nat.mul_le_mono_r; lia). rewrite Nat.mul_succ_l in *. lia.
Qed.

(** ** UTF-8 *)
Lemma map_bits_inj a : forall b, is_bytes a -> is_bytes b -> map (bits 8) a = map (bits 8) b -> a = b.
Proof.
  induction a as [|x a IH]; intros [|y b] A B E; try discriminate; [reflexivity|].
  assert (bits 8 x = bits 8 y /\ map (bits 8) a = map (bits 8) b) as [E1 E2].
  { cbn [map] in E. remember (bits 8) as f. injection E as E1 E2. now split. }
  apply Forall_cons_iff in A as [Ax A], B as [By B]. f_equal; [exact (bits_inj 8 x y Ax By E1)|now apply IH].
Qed.
Lemma app_inv_len {A} (a b c d : list A) : a ++ b = c ++ d -> List.length b = List.length d -> a = c /\ b = d.
Proof.
  intros E L. assert (List.length a = List.length c) as L' by (apply (f_equal (@List.length A)) in E; rewrite !app_length in E; lia).
  clear L. revert c L' E. induction a as [|x a IH]; intros [|y c] L' E; try discriminate; [now split|].
  injection E as -> E. apply IH in E as [-> ->]; [now split|now injection L'].
Qed.
Lemma utf8_octets_unique c b b' : utf8_octets c b -> utf8_octets c b' -> b = b'.
Proof.
  intros (B & H) (B' & H').
  destruct H as [[L ->]|[(L & x & y & E & Ly & M)|[(L & _ & x & y & z & E & Ly & Lz & M)|(L & x & y & z & u & E & Ly & Lz & Lu & M)]]],
    H' as [[L' ->]|[(L' & x' & y' & E' & Ly' & M')|[(L' & _ & x' & y' & z' & E' & Ly' & Lz' & M')|(L' & x' & y' & z' & u' & E' & Ly' & Lz' & Lu' & M')]]];
    try lia; [reflexivity| | |].
  - rewrite E in E'. apply app_inv_len in E' as [<- <-]; [|congruence]. apply map_bits_inj; try assumption. congruence.
  - rewrite E in E'. apply app_inv_len in E' as [<- E']; [|rewrite !app_length; congruence].
    apply app_inv_len in E' as [<- <-]; [|congruence]. apply map_bits_inj; try assumption. congruence.
  - rewrite E in E'. apply app_inv_len in E' as [<- E']; [|rewrite !app_length; congruence].
    apply app_inv_len in E' as [<- E']; [|rewrite !app_length; congruence].
    apply app_inv_len in E' as [<- <-]; [|congruence]. apply map_bits_inj; try assumption. congruence.
Qed.

Lemma j35 x y : y < 32 -> bits 8 (x * 32 + y) = bits 3 x ++ bits 5 y.
Proof. exact (bits_app 3 5 x y). Qed.
Lemma j26 x y : y < 64 -> bits 8 (x * 64 + y) = bits 2 x ++ bits 6 y.
Proof. exact (bits_app 2 6 x y). Qed.
Lemma j44 x y : y < 16 -> bits 8 (x * 16 + y) = bits 4 x ++ bits 4 y.
Proof. exact (bits_app 4 4 x y). Qed.
Lemma j53 x y : y < 8 -> bits 8 (x * 8 + y) = bits 5 x ++ bits 3 y.
Proof. exact (bits_app 5 3 x y). Qed.

Lemma utf8_char_octets c b : utf8_char c = Some b -> utf8_octets c b.
Proof.
  unfold utf8_char, utf8_octets. cbv zeta.
  destruct (N.ltb_spec c 128) as [L1|L1].
  { intros H. apply Some_inj in H. subst b. split; [constructor; [lia|constructor]|]. left. now split. }
  destruct (N.ltb_spec c 2048) as [L2|L2].
  { intros H. apply Some_inj in H. subst b. split; [unfold is_bytes; repeat first [apply Forall_nil|apply Forall_cons; [lia|]]|]. right. left. split; [lia|].
    exists (bits 5 (c / 64)), (bits 6 (c mod 64)). split; [exact (bits_split 5 6 c L2)|]. split; [reflexivity|]. cbn [map].
    replace (192 + c / 64) with (6 * 32 + c / 64) by lia. replace (128 + c mod 64) with (2 * 64 + c mod 64) by lia.
    rewrite j35, j26 by lia. reflexivity. }
  destruct (N.ltb_spec c 65536) as [L3|L3].
  { destruct ((55296 <=? c) && (c <? 57344)) eqn:S; [discriminate|].
    intros H. apply Some_inj in H. subst b. split; [unfold is_bytes; repeat first [apply Forall_nil|apply Forall_cons; [lia|]]|]. right. right. left. split; [lia|]. split; [lia|].
    exists (bits 4 (c / 4096)), (bits 6 (c / 64 mod 64)), (bits 6 (c mod 64)).
    split; [|split; [reflexivity|split; [reflexivity|]]].
    - rewrite (bits_split 4 12 c L3 : bits 16 c = bits 4 (c / 4096) ++ bits 12 (c mod 4096)). f_equal.
      rewrite (bits_split 6 6 (c mod 4096) : c mod 4096 < 4096 -> bits 12 (c mod 4096) = bits 6 (c mod 4096 / 64) ++ bits 6 (c mod 4096 mod 64)) by lia.
      f_equal; f_equal; lia.
    - cbn [map]. replace (224 + c / 4096) with (14 * 16 + c / 4096) by lia. replace (128 + c / 64 mod 64) with (2 * 64 + c / 64 mod 64) by lia.
      replace (128 + c mod 64) with (2 * 64 + c mod 64) by lia. rewrite j44, !j26 by lia. reflexivity. }
  destruct (N.ltb_spec c 1114112) as [L4|L4]; [|discriminate].
  intros H. apply Some_inj in H. subst b. split; [unfold is_bytes; repeat first [apply Forall_nil|apply Forall_cons; [lia|]]|]. right. right. right. split; [lia|].
  exists (bits 3 (c / 262144)), (bits 6 (c / 4096 mod 64)), (bits 6 (c / 64 mod 64)), (bits 6 (c mod 64)).
  split; [|split; [reflexivity|split; [reflexivity|split; [reflexivity|]]]].
  - rewrite (bits_split 3 18 c : c < 2097152 -> bits 21 c = bits 3 (c / 262144) ++ bits 18 (c mod 262144)) by lia. f_equal.
    rewrite (bits_split 6 12 (c mod 262144) : c mod 262144 < 262144 -> bits 18 (c mod 262144) = bits 6 (c mod 262144 / 4096) ++ bits 12 (c mod 262144 mod 4096)) by lia.
    f_equal; [f_equal; lia|].
    rewrite (bits_split 6 6 (c mod 262144 mod 4096) : c mod 262144 mod 4096 < 4096 -> bits 12 (c mod 262144 mod 4096) = bits 6 (c mod 262144 mod 4096 / 64) ++ bits 6 (c mod 262144 mod 4096 mod 64)) by lia.
    f_equal; f_equal; lia.
  - cbn [map]. replace (240 + c / 262144) with (30 * 8 + c / 262144) by lia. replace (128 + c / 4096 mod 64) with (2 * 64 + c / 4096 mod 64) by lia.
    replace (128 + c / 64 mod 64) with (2 * 64 + c / 64 mod 64) by lia.
    replace (128 + c mod 64) with (2 * 64 + c mod 64) by lia. rewrite j53, !j26 by lia. reflexivity.
Qed.
Lemma utf8_char_iff c b : utf8_char c = Some b <-> utf8_octets c b.
Proof.
  split; [apply utf8_char_octets|]. intros H. destruct (utf8_char c) as [b'|] eqn:E.
  - apply utf8_char_octets in E. f_equal. now apply (utf8_octets_unique c).
  - exfalso. revert E H. unfold utf8_char, utf8_octets. cbv zeta.
    destruct (N.ltb_spec c 128); [discriminate|]. destruct (N.ltb_spec c 2048); [discriminate|].
    destruct (N.ltb_spec c 65536).
    + destruct ((55296 <=? c) && (c <? 57344)) eqn:S; [|discriminate]. intros _ (_ & [H'|[H'|[H'|H']]]); lia.
    + destruct (N.ltb_spec c 1114112); [discriminate|]. intros _ (_ & [H'|[H'|[H'|H']]]); lia.
Qed.
Lemma utf8_encode_iff s : forall b, utf8_encode s = Ok b <-> exists pieces, Forall2 utf8_octets s pieces /\ b = concat pieces.
Proof.
  induction s as [|c s IH]; intros b.
  - cbn [utf8_encode]. split.
    + intros H. apply Ok_inj in H. subst b. exists []. split; [constructor|reflexivity].
    + intros (p & F & ->). inversion F. reflexivity.
  - cbn [utf8_encode]. split.
    + destruct (utf8_char c) as [x|] eqn:E; [|discriminate]. destruct (utf8_encode s) as [y|] eqn:Es; [|discriminate].
      intros H. apply Ok_inj in H. subst b. destruct (proj1 (IH y) eq_refl) as (p & F & ->). exists (x :: p). split; [|reflexivity].
      constructor; [now apply utf8_char_iff|exact F].
    + intros (p & F & ->). inversion F as [|? x ? p' Hx Fp]; subst. apply utf8_char_iff in Hx. rewrite Hx.
      rewrite (proj2 (IH (concat p'))) by (exists p'; now split). reflexivity.
Qed.
Lemma utf8_decode_iff b s : utf8_decode b = Ok s <-> exists pieces, Forall2 utf8_octets s pieces /\ b = concat pieces.
Proof. rewrite <- utf8_encode_iff. split; [apply utf8_encode_decode|apply utf8_decode_encode]. Qed.
