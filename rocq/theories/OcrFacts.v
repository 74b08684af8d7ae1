(** Base 32 bit by bit, and reading OCR codes and CSV lines. *)
From Coq Require Import Lia ZifyClasses ZifyN ZifyNat ZifyBool.
From Verif Require Import PyBase World Regex RegexFacts Codec CodecFacts ListFacts SpecCodec BitFacts Receipt SpecReceipt ReceiptFacts RoundTrip RoundTrip2 SpecReading ReadingFacts SpecOcr.
Open Scope N_scope.
Local Ltac Zify.zify_post_hook ::= Z.div_mod_to_equations.

(** ** Base 32 *)
Lemma nth_char ds : Forall (fun d => d < 32) ds -> map (fun d => nth (N.to_nat d) alphabet32 0) ds = map b32_char ds.
Proof. intros F. apply map_ext_in. intros d H. rewrite Forall_forall in F. symmetry. now apply b32_char_nth, F. Qed.

Lemma val_char c v : b32_val c = Some v -> v < 32 /\ c = b32_char v.
Proof.
  unfold b32_val, b32_char, is_AZ. intros E. destruct ((65 <=? c) && (c <=? 90)) eqn:A.
  - injection E as <-. split; [lia|]. destruct (c - 65 <? 26) eqn:B; lia.
  - destruct ((50 <=? c) && (c <=? 55)) eqn:B; [|discriminate E]. injection E as <-. split; [lia|]. destruct (c - 24 <? 26) eqn:D; lia.
Qed.

Lemma acc_bits ds : Forall (fun d => d < 32) ds -> forall m acc, exists v,
  b32_acc acc (map b32_char ds) = Some v /\ bits (m + 5 * List.length ds) v = bits m acc ++ flat_map (bits 5) ds
  /\ (acc < 2 ^ N.of_nat m -> v < 2 ^ N.of_nat (m + 5 * List.length ds)).
Proof.
  induction 1 as [|d ds L _ IH]; intros m acc.
  - exists acc. cbn [map b32_acc flat_map List.length]. rewrite app_nil_r. replace (m + 5 * 0)%nat with m by lia. auto.
  - cbn [map b32_acc flat_map List.length]. rewrite b32_val_char by exact L.
    destruct (IH (m + 5)%nat (acc * 32 + d)) as (v & E & B & U). exists v. split; [exact E|].
    replace (m + 5 * S (List.length ds))%nat with (m + 5 + 5 * List.length ds)%nat by lia. split.
    + rewrite B. rewrite app_assoc. f_equal. exact (bits_app m 5 acc d L).
    + intros A. apply U. replace (N.of_nat (m + 5)) with (N.of_nat m + 5) by lia. rewrite N.pow_add_r. change (2 ^ 5) with 32. nia.
Qed.

Lemma bytes5_bits v : v < 2 ^ 40 -> flat_map (bits 8) (bytes5 v) = bits 40 v /\ is_bytes (bytes5 v).
Proof.
  intros L. unfold bytes5. cbn [flat_map]. rewrite app_nil_r. split.
  - rewrite (bits_split 8 32 v L : bits 40 v = bits 8 (v / 4294967296) ++ bits 32 (v mod 4294967296)). f_equal.
    rewrite (bits_split 8 24 (v mod 4294967296) : v mod 4294967296 < 4294967296 -> bits 32 (v mod 4294967296) = bits 8 (v mod 4294967296 / 16777216) ++ bits 24 (v mod 4294967296 mod 16777216)) by lia.
    f_equal; [f_equal; lia|]. replace (v mod 4294967296 mod 16777216) with (v mod 16777216) by lia.
    rewrite (bits_split 8 16 (v mod 16777216) : v mod 16777216 < 16777216 -> bits 24 (v mod 16777216) = bits 8 (v mod 16777216 / 65536) ++ bits 16 (v mod 16777216 mod 65536)) by lia.
    f_equal; [f_equal; lia|]. replace (v mod 16777216 mod 65536) with (v mod 65536) by lia.
    rewrite (bits_split 8 8 (v mod 65536) : v mod 65536 < 65536 -> bits 16 (v mod 65536) = bits 8 (v mod 65536 / 256) ++ bits 8 (v mod 65536 mod 256)) by lia.
    f_equal; f_equal; lia.
  - change (2 ^ 40) with 1099511627776 in L. repeat constructor; lia.
Qed.

Lemma flat_firstn k : forall l, firstn (8 * k) (flat_map (bits 8) l) = flat_map (bits 8) (firstn k l).
Proof.
  induction k as [|k IH]; intros l; [reflexivity|]. destruct l as [|x l]; [now rewrite firstn_nil|].
  cbn [flat_map firstn]. replace (8 * S k)%nat with (List.length (bits 8 x) + 8 * k)%nat by (rewrite bits_length; lia).
  now rewrite firstn_app_2, IH.
Qed.
Lemma flat5_length ds : List.length (flat_map (bits 5) ds) = (5 * List.length ds)%nat.
Proof. induction ds as [|d ds IH]; [reflexivity|]. cbn [flat_map List.length]. rewrite app_length, IH, bits_length. lia. Qed.
Lemma flat8_length ds : List.length (flat_map (bits 8) ds) = (8 * List.length ds)%nat.
Proof. induction ds as [|d ds IH]; [reflexivity|]. cbn [flat_map List.length]. rewrite app_length, IH, bits_length. lia. Qed.

Lemma last_quantum pad ds : Forall (fun d => d < 32) ds -> (List.length ds + pad = 8)%nat -> In pad [1; 3; 4; 6]%nat ->
  exists b rest, b32_quanta pad (map b32_char ds) = Ok b /\ is_bytes b /\ flat_map (bits 5) ds = flat_map (bits 8) b ++ rest /\ (List.length rest < 5)%nat.
Proof.
  intros F L P. destruct (acc_bits ds F 0 0) as (v & E & B & U). change (bits (5 * List.length ds) v = flat_map (bits 5) ds) in B.
  assert (v < 2 ^ N.of_nat (5 * List.length ds)) as Lv by (apply U; reflexivity).
  set (V := v * 32 ^ N.of_nat pad). set (k := ((43 - 5 * pad) / 8)%nat).
  assert (2 ^ N.of_nat (5 * pad) = 32 ^ N.of_nat pad) as P2. { replace (N.of_nat (5 * pad)) with (5 * N.of_nat pad) by lia. now rewrite N.pow_mul_r. }
  assert (bits 40 V = flat_map (bits 5) ds ++ repeat false (5 * pad)) as BV.
  { rewrite <- B, <- bits_zero. pose proof (bits_app (5 * List.length ds) (5 * pad) v 0) as X. rewrite P2, N.add_0_r in X.
    replace (5 * List.length ds + 5 * pad)%nat with 40%nat in X by lia. apply X. apply N.neq_0_lt_0. now apply N.pow_nonzero. }
  assert (V < 2 ^ 40) as LV.
  { unfold V. rewrite <- P2. replace (2 ^ 40) with (2 ^ N.of_nat (5 * List.length ds) * 2 ^ N.of_nat (5 * pad)).
    - apply N.mul_lt_mono_pos_r; [apply N.neq_0_lt_0; now apply N.pow_nonzero|exact Lv].
    - rewrite <- N.pow_add_r. f_equal. lia. }
  destruct (bytes5_bits V LV) as (B5 & I5).
  assert (8 * k <= 5 * List.length ds < 8 * k + 5)%nat as K. { destruct P as [<-|[<-|[<-|[<-|[]]]]]; subst k; cbn; lia. }
  exists (firstn k (bytes5 V)), (skipn (8 * k) (flat_map (bits 5) ds)).
  split.
  { assert (Q : b32_quanta pad (map b32_char ds) = match b32_acc 0 (map b32_char ds) with None => Err PyBinasciiError | Some v => Ok (firstn k (bytes5 (v * 32 ^ N.of_nat pad))) end \/ ds = []).
    { destruct ds as [|? [|? [|? [|? [|? [|? [|? [|? ds]]]]]]]]; auto; exfalso; cbn [List.length] in L; destruct P as [<-|[<-|[<-|[<-|[]]]]]; lia. }
    destruct Q as [Q| ->]; [now rewrite Q, E|]. exfalso. cbn [List.length] in L. destruct P as [<-|[<-|[<-|[<-|[]]]]]; lia. }
  split. { unfold is_bytes in *. rewrite Forall_forall in I5 |- *. intros x H. apply I5. rewrite <- (firstn_skipn k). apply in_or_app. now left. }
  split.
  - rewrite <- flat_firstn, B5, BV. rewrite firstn_app. rewrite flat5_length. replace (8 * k - 5 * List.length ds)%nat with 0%nat by lia.
    cbn [firstn]. rewrite app_nil_r. symmetry. apply firstn_skipn.
  - rewrite skipn_length, flat5_length. lia.
Qed.

Lemma quanta_bits n : forall pad ds, (List.length ds <= n)%nat -> Forall (fun d => d < 32) ds -> Nat.modulo (List.length ds + pad) 8 = 0%nat -> In pad [0; 1; 3; 4; 6]%nat ->
  exists b rest, b32_quanta pad (map b32_char ds) = Ok b /\ is_bytes b /\ flat_map (bits 5) ds = flat_map (bits 8) b ++ rest /\ (List.length rest < 5)%nat.
Proof.
  induction n as [|n IH]; intros pad ds L F M P.
  { destruct ds; [|cbn in L; lia]. exists [], []. repeat split; try constructor. cbn; lia. }
  destruct (Nat.lt_ge_cases (List.length ds) 8) as [S8|S8].
  - destruct ds as [|d ds]; [exists [], []; repeat split; try constructor; cbn; lia|].
    assert (pad <> 0)%nat as P0. { intros ->. cbn [List.length] in *. rewrite Nat.add_0_r, Nat.mod_small in M by lia. discriminate M. }
    apply last_quantum; [exact F| |destruct P as [<-|P]; [lia|exact P]].
    assert (pad < 8)%nat by (destruct P as [<-|[<-|[<-|[<-|[<-|[]]]]]]; lia). cbn [List.length] in *.
    clear - M S8 H. lia.
  - destruct ds as [|d1 [|d2 [|d3 [|d4 [|d5 [|d6 [|d7 [|d8 ds]]]]]]]]; cbn [List.length] in S8; try lia.
    pose proof F as F8. repeat match goal with H : Forall _ (_ :: _) |- _ => apply Forall_cons_iff in H; destruct H end.
    destruct (IH pad ds) as (b & rest & E & B & S & R); [cbn [List.length] in L; lia|assumption| |exact P|].
    { cbn [List.length] in M. clear - M. lia. }
    assert (Forall (fun d => d < 32) [d1; d2; d3; d4; d5; d6; d7; d8]) as Fq by (repeat constructor; assumption).
    destruct (acc_bits _ Fq 0 0) as (v & Ev & Bv & Uv). change (bits 40 v = flat_map (bits 5) [d1; d2; d3; d4; d5; d6; d7; d8]) in Bv.
    destruct (bytes5_bits v) as (B5 & I5); [apply Uv; reflexivity|].
    exists (bytes5 v ++ b), rest. split; [cbn [map b32_quanta]; cbn [map] in Ev; now rewrite Ev, E|].
    split; [apply Forall_app; split; assumption|]. split; [|exact R].
    rewrite flat_map_app, B5, <- app_assoc, <- S. change (d1 :: d2 :: d3 :: d4 :: d5 :: d6 :: d7 :: d8 :: ds) with ([d1; d2; d3; d4; d5; d6; d7; d8] ++ ds).
    rewrite flat_map_app. f_equal. symmetry. exact Bv.
Qed.

Lemma acc_digits s : forall acc v, b32_acc acc s = Some v -> exists ds, Forall (fun d => d < 32) ds /\ s = map b32_char ds.
Proof.
  induction s as [|c s IH]; intros acc v E; [exists []; auto|]. cbn [b32_acc] in E. destruct (b32_val c) as [x|] eqn:V; [|discriminate E].
  destruct (val_char _ _ V) as (L & ->). destruct (IH _ _ E) as (ds & F & ->). exists (x :: ds). auto.
Qed.
Lemma quanta_digits n : forall pad s b, (List.length s <= n)%nat -> b32_quanta pad s = Ok b -> exists ds, Forall (fun d => d < 32) ds /\ s = map b32_char ds.
Proof.
  assert (Short : forall s (f : N -> result bytes) b, match b32_acc 0 s with None => Err PyBinasciiError | Some v => f v end = Ok b -> exists ds, Forall (fun d => d < 32) ds /\ s = map b32_char ds).
  { intros s f b E. destruct (b32_acc 0 s) eqn:A; [|discriminate E]. exact (acc_digits _ _ _ A). }
  induction n as [|n IH]; intros pad s b L E.
  { destruct s; [|cbn in L; lia]. exists []; auto. }
  destruct s as [|s1 [|s2 [|s3 [|s4 [|s5 [|s6 [|s7 [|s8 s]]]]]]]]; [exists []; auto|..]; try (exact (Short _ (fun v => Ok (firstn ((43 - 5 * pad) / 8) (bytes5 (v * 32 ^ N.of_nat pad)))) b E)).
  cbn [b32_quanta] in E. destruct (b32_acc 0 [s1; s2; s3; s4; s5; s6; s7; s8]) as [v|] eqn:A; [|discriminate E].
  destruct (b32_quanta pad s) as [t|] eqn:Q; [|discriminate E]. destruct (acc_digits _ _ _ A) as (d8 & F8 & E8).
  destruct (IH pad s t) as (ds & F & ->); [cbn [List.length] in L; lia|exact Q|]. exists (d8 ++ ds). split; [now apply Forall_app|].
  rewrite map_app, <- E8. reflexivity.
Qed.

Lemma rstrip_shape s : forall n t, rstrip_eq_len s = (n, t) -> s = t ++ repeat c_eq n /\ (forall r, t <> r ++ [c_eq]).
Proof.
  induction s as [|c s IH]; intros n t E; cbn [rstrip_eq_len] in E.
  - injection E as <- <-. split; [reflexivity|]. now destruct r.
  - destruct (rstrip_eq_len s) as [m u]. destruct (IH m u eq_refl) as (-> & N).
    destruct u as [|x u].
    + destruct (c =? c_eq) eqn:C; injection E as <- <-; [apply N.eqb_eq in C as ->; split; [reflexivity|now destruct r]|].
      split; [reflexivity|]. intros [|y [|z r]] X; try discriminate X. injection X as ->. now rewrite N.eqb_refl in C.
    + injection E as <- <-. split; [reflexivity|]. intros [|y r] X; [discriminate X|]. injection X as _ X. exact (N r X).
Qed.

Lemma is_char_map ds : Forall (fun d => d < 32) ds -> forallb is_b32_char (map b32_char ds) = true.
Proof. induction 1 as [|d ds L _ IH]; [reflexivity|]. cbn [map forallb]. now rewrite b32_char_is, IH. Qed.

Lemma app_same {A} : forall (a a' r r' : list A), a ++ r = a' ++ r' -> List.length a = List.length a' -> a = a'.
Proof. induction a as [|x a IH]; intros [|y a'] r r' E L; try discriminate L; [reflexivity|]. injection E as -> E. injection L as L. f_equal. exact (IH _ _ _ E L). Qed.

Lemma flat8_inj : forall b b', is_bytes b -> is_bytes b' -> List.length b = List.length b' -> forall r r', flat_map (bits 8) b ++ r = flat_map (bits 8) b' ++ r' -> b = b'.
Proof.
  induction b as [|x b IH]; intros [|y b'] I I' L r r' E; try discriminate L; [reflexivity|].
  cbn [flat_map] in E. rewrite <- !app_assoc in E. unfold is_bytes in *. apply Forall_cons_iff in I as (Ix & I), I' as (Iy & I').
  assert (bits 8 x = bits 8 y) as Exy.
  { apply (app_same _ _ _ _ E). now rewrite !bits_length. }
  apply bits_inj in Exy as ->; [|exact Ix|exact Iy]. apply app_inv_head in E. f_equal. injection L as L. exact (IH b' I I' L r r' E).
Qed.

Theorem b32_spec s b : b32decode Py2 s = Ok b <-> base32 s b.
Proof.
  split.
  - unfold b32decode. intros E. destruct (is_ascii s); [|discriminate E]. destruct (re_match b32Regex s) eqn:R; [|discriminate E].
    unfold py_b32decode in E. destruct (List.length s mod 8 =? 0)%nat eqn:M; [|discriminate E]. apply Nat.eqb_eq in M.
    destruct (rstrip_eq_len s) as [pad body] eqn:S. destruct (b32_quanta pad body) as [t|] eqn:Q; [|discriminate E]. cbn [bind] in E.
    destruct (existsb (Nat.eqb pad) [0; 1; 3; 4; 6]%nat) eqn:P; [|discriminate E]. injection E as ->.
    destruct (rstrip_shape _ _ _ S) as (-> & _). destruct (quanta_digits _ _ _ _ (le_n _) Q) as (ds & F & ->).
    apply existsb_exists in P as (k & Pk & Ek). apply Nat.eqb_eq in Ek as <-.
    rewrite app_length, repeat_length, map_length in M.
    destruct (quanta_bits _ pad ds (le_n _) F M Pk) as (b' & rest & E' & B & Bits & Lr). rewrite Q in E'. injection E' as <-.
    exists ds, rest, pad. split; [now rewrite nth_char|]. split; [exact F|]. split; [exact B|]. split; [exact Bits|]. split; [exact Lr|].
    split; [now rewrite app_length, repeat_length, map_length|]. destruct Pk as [<-|[<-|[<-|[<-|[<-|[]]]]]]; lia.
  - intros (ds & rest & pad & -> & F & B & Bits & Lr & M & Lp). rewrite nth_char in M |- * by exact F.
    assert (M' := M). rewrite app_length, repeat_length, map_length in M'.
    assert (5 * List.length ds = 8 * List.length b + List.length rest)%nat as Ln.
    { apply (f_equal (@List.length bool)) in Bits. rewrite flat5_length, app_length, flat8_length in Bits. exact Bits. }
    assert (In pad [0; 1; 3; 4; 6]%nat) as P. { cbn [In]. clear - M' Ln Lr Lp. lia. }
    destruct (quanta_bits _ pad ds (le_n _) F M' P) as (b' & rest' & Q & B' & Bits' & Lr').
    assert (5 * List.length ds = 8 * List.length b' + List.length rest')%nat as Ln'.
    { apply (f_equal (@List.length bool)) in Bits'. rewrite flat5_length, app_length, flat8_length in Bits'. exact Bits'. }
    assert (b' = b) as ->. { rewrite Bits in Bits'. symmetry. apply (flat8_inj b b' B B' ltac:(lia) rest rest' Bits'). }
    unfold b32decode. pose proof (is_char_map ds F) as Ch.
    replace (is_ascii (map b32_char ds ++ repeat c_eq pad)) with true.
    2:{ symmetry. apply is_ascii_spec. apply Forall_app. split.
        - apply Forall_forall. intros x Hx. rewrite forallb_forall in Ch. exact (proj1 (is_b32_char_ascii x (Ch x Hx))).
        - apply Forall_forall. intros x Hx. apply repeat_spec in Hx as ->. reflexivity. }
    replace (re_match b32Regex (map b32_char ds ++ repeat c_eq pad)) with true.
    2:{ symmetry. apply b32Regex_spec. exists (map b32_char ds), pad, []. rewrite app_nil_r. repeat split; try lia; try now left.
        rewrite forallb_forall in Ch. try (apply forallb_forall; intros x Hx; apply (is_b32_char_ascii x), Ch, Hx);
        try (apply Forall_forall; intros x Hx; apply (is_b32_char_ascii x), Ch, Hx). }
    unfold py_b32decode. rewrite M. cbn [Nat.eqb]. rewrite rstrip_eq_len_app by exact Ch. rewrite Q. cbn [bind].
    destruct P as [<-|[<-|[<-|[<-|[<-|[]]]]]]; reflexivity.
Qed.

Lemma b32_fails x e : b32decode Py2 x = Err e -> (forall b, ~ base32 x b) /\
  (ascii_text x /\ b64_exn e = true \/ ~ ascii_text x /\ e = PyUnicodeEncodeError).
Proof.
  intros E. split; [intros b B; apply b32_spec in B; rewrite B in E; discriminate E|].
  unfold b32decode in E. destruct (is_ascii x) eqn:A.
  - left. apply is_ascii_spec in A. split; [exact A|]. destruct (re_match b32Regex x); [|injection E as <-; reflexivity].
    unfold py_b32decode in E. destruct (_ =? 0)%nat; [|injection E as <-; reflexivity]. destruct (rstrip_eq_len x) as [pad body].
    destruct (b32_quanta pad body) as [t|y] eqn:Q; cbn [bind] in E.
    + destruct (existsb _ _); [discriminate E|injection E as <-; reflexivity].
    + injection E as <-. revert Q. clear A. assert (forall n body, (List.length body <= n)%nat -> b32_quanta pad body = Err y -> b64_exn y = true) as H; [|apply (H _ body (le_n _))].
      clear body. induction n as [|n IH]; intros body L Q. { destruct body; [discriminate Q|cbn in L; lia]. }
      destruct body as [|s1 [|s2 [|s3 [|s4 [|s5 [|s6 [|s7 [|s8 s]]]]]]]]; [discriminate Q|..];
        cbn [b32_quanta] in Q; match type of Q with context[match ?a with _ => _ end] => destruct a end; try discriminate Q; try (injection Q as <-; reflexivity).
      destruct (b32_quanta pad s) as [t|z] eqn:Qs; [discriminate Q|]. injection Q as ->. apply (IH s); [cbn [List.length] in L; lia|exact Qs].
  - right. injection E as <-. split; [|reflexivity]. intros X. apply is_ascii_spec in X. congruence.
Qed.
Lemma base32_fun s b b' : base32 s b -> base32 s b' -> b = b'.
Proof. intros H H'. apply b32_spec in H, H'. congruence. Qed.
Lemma base32_ascii s b : base32 s b -> ascii_text s.
Proof. intros H. apply b32_spec in H. unfold b32decode in H. destruct (is_ascii s) eqn:A; [|discriminate H]. now apply is_ascii_spec. Qed.

(** ** OCR codes *)
Lemma ocr_fun s be t n c g be' t' n' c' g' : ocr_parts s be t n c g -> ocr_parts s be' t' n' c' g' -> be = be' /\ t = t' /\ n = n' /\ c = c' /\ g = g'.
Proof.
  intros (-> & L & F) (E & L' & F'). apply (f_equal (split_char c_us)) in E.
  rewrite !split_join in E by (discriminate || (apply Forall_cons; [easy|assumption])). injection E as E.
  assert (be = be') as <- by (apply (app_same _ _ _ _ E); congruence). apply app_inv_head in E. injection E as -> -> -> ->. auto.
Qed.

Lemma ocr_stage w g s : (exists before tc serial chain sg, ocr_parts s before tc serial chain sg /\
    fromOCRCode w g s = (do tcb <- catch (b32decode g tc) b64_exn (MalformedReceipt s);
      do pcb <- catch (b32decode g chain) b64_exn (MalformedReceipt s);
      do sb <- catch (b32decode g sg) b64_exn (MalformedReceipt s);
      fromBasicCode w (join [c_us] ([] :: before ++ [b64encode tcb; serial; b64encode pcb; b64encode sb]))))
  \/ ((forall before tc serial chain sg, ~ ocr_parts s before tc serial chain sg) /\ fromOCRCode w g s = Err (MalformedReceipt s)).
Proof.
  unfold fromOCRCode. pose proof (join_split c_us s) as J. pose proof (split_char_no_sep c_us s) as NS.
  assert (forall before tc serial chain sg, ocr_parts s before tc serial chain sg -> split_char c_us s = [] :: before ++ [tc; serial; chain; sg] /\ List.length before = 9%nat) as Parts.
  { intros be tc n c sg (-> & L & F). split; [|exact L]. apply split_join; [discriminate|]. apply Forall_cons; [easy|exact F]. }
  assert (forall before tc serial chain sg, ocr_parts s before tc serial chain sg -> List.length (split_char c_us s) = 14%nat /\ hd_error (split_char c_us s) = Some []) as Len.
  { intros be tc n c sg P. destruct (Parts _ _ _ _ _ P) as (-> & L). cbn [List.length hd_error]. rewrite app_length, L. auto. }
  destruct (split_char c_us s) as [|p0 [|p1 [|p2 [|p3 [|p4 [|p5 [|p6 [|p7 [|p8 [|p9 [|p10 [|p11 [|p12 [|p13 [|]]]]]]]]]]]]]]] eqn:Ss;
    try (right; split; [|reflexivity]; intros be tc n c sg P; destruct (Len _ _ _ _ _ P) as (L & _); discriminate L).
  destruct p0 as [|c0 p0]; cbn [nonempty negb].
  2:{ right. split; [|reflexivity]. intros be tc n c sg P. destruct (Len _ _ _ _ _ P) as (_ & L). discriminate L. }
  left. exists [p1; p2; p3; p4; p5; p6; p7; p8; p9], p10, p11, p12, p13. split; [|reflexivity].
  split; [symmetry; exact J|]. split; [reflexivity|]. exact (Forall_inv_tail NS).
Qed.

Theorem ocr_reads w s x : fromOCRCode w Py2 s = Ok x <-> exists qr, ocr_code s qr /\ fromBasicCode w qr = Ok x.
Proof.
  destruct (ocr_stage w Py2 s) as [(be & tc & n & ch & sg & P & ->)|(Np & ->)].
  - split.
    + intros E. apply bind_Ok in E as (tb & Et & E). apply bind_Ok in E as (cb & Ec & E). apply bind_Ok in E as (sb & Eg & E).
      apply catch_Ok in Et, Ec, Eg. apply b32_spec in Et, Ec, Eg. eexists. split; [|exact E]. exists be, tc, n, ch, sg, tb, cb, sb. auto 10.
    + intros (qr & (be' & tc' & n' & ch' & sg' & tb & cb & sb & P' & Et & Ec & Eg & ->) & E).
      destruct (ocr_fun _ _ _ _ _ _ _ _ _ _ _ P P') as (<- & <- & <- & <- & <-). apply b32_spec in Et, Ec, Eg.
      rewrite Et. cbn [catch bind]. rewrite Ec. cbn [catch bind]. rewrite Eg. cbn [catch bind]. exact E.
  - split; [discriminate|]. intros (qr & (be' & tc' & n' & ch' & sg' & tb & cb & sb & P' & _) & _). exfalso. exact (Np _ _ _ _ _ P').
Qed.

Lemma encodable_parts sep l : encodable sep -> (forall t, In t l -> encodable t) -> encodable (join sep l).
Proof.
  intros S H. induction l as [|t l IH]; [exists []; reflexivity|]. destruct l as [|u l]; [apply H; now left|].
  change (join sep (t :: u :: l)) with (t ++ sep ++ join sep (u :: l)). apply encodable_app. split; [apply H; now left|].
  apply encodable_app. split; [exact S|]. apply IH. intros x X. apply H. now right.
Qed.
Lemma encodable_us : encodable [c_us].
Proof. apply encodable_ascii. repeat constructor. Qed.
Lemma encodable_nil : encodable [].
Proof. exists []. reflexivity. Qed.

Lemma ocr_encodable s qr : encodable s -> ocr_code s qr -> encodable qr.
Proof.
  intros En (be & tc & n & ch & sg & tb & cb & sb & (-> & _ & _) & _ & _ & _ & ->).
  pose proof (encodable_join _ _ En) as Ej. apply encodable_parts; [apply encodable_us|].
  intros t [<-|H]; [apply encodable_nil|]. apply in_app_or in H as [H|H]; [apply Ej; right; apply in_or_app; now left|].
  destruct H as [<-|[<-|[<-|[<-|[]]]]]; try apply encodable_ascii, b64encode_ascii. apply Ej. right. apply in_or_app. right. right. now left.
Qed.

Theorem ocr_diagnosis w s e : encodable s -> fromOCRCode w Py2 s = Err e <-> ocr_fault w s e.
Proof.
  intros En. destruct (ocr_stage w Py2 s) as [(be & tc & n & ch & sg & P & ->)|(Np & ->)].
  2:{ split; [intros E; injection E as <-; now apply of_form|].
      intros F. destruct F as [F|? ? ? ? ? ? ? ? F|? ? ? ? ? ? ? ? F|qr e F]; try reflexivity; exfalso; try exact (Np _ _ _ _ _ F).
      destruct F as (? & ? & ? & ? & ? & ? & ? & ? & F & _). exact (Np _ _ _ _ _ F). }
  assert (Inv : forall e, ocr_fault w s e ->
    (exists sound x later, [tc; ch; sg] = sound ++ x :: later /\ Forall (fun y => exists b, base32 y b) sound /\ (forall b, ~ base32 x b)
       /\ (ascii_text x /\ e = MalformedReceipt s \/ ~ ascii_text x /\ e = PyUnicodeEncodeError))
    \/ exists tb cb sb, base32 tc tb /\ base32 ch cb /\ base32 sg sb /\ code_fault w (join [c_us] ([] :: be ++ [b64encode tb; n; b64encode cb; b64encode sb])) e).
  { clear e. intros e F. destruct F as [F|be' tc' n' ch' sg' so x la F E S B A|be' tc' n' ch' sg' so x la F E S A|qr e F C].
    - exfalso. exact (F _ _ _ _ _ P).
    - destruct (ocr_fun _ _ _ _ _ _ _ _ _ _ _ P F) as (<- & <- & <- & <- & <-). left. exists so, x, la. auto 10.
    - destruct (ocr_fun _ _ _ _ _ _ _ _ _ _ _ P F) as (<- & <- & <- & <- & <-). left. exists so, x, la. split; [exact E|]. split; [exact S|].
      split; [intros b B; exact (A (base32_ascii _ _ B))|]. now right.
    - destruct F as (be' & tc' & n' & ch' & sg' & tb & cb & sb & F & Et & Ec & Eg & ->).
      destruct (ocr_fun _ _ _ _ _ _ _ _ _ _ _ P F) as (<- & <- & <- & <- & <-). right. exists tb, cb, sb. auto 10. }
  assert (Bad : forall sound x later y, [tc; ch; sg] = sound ++ x :: later -> Forall (fun z => exists b, base32 z b) sound -> b32decode Py2 x = Err y ->
    forall e, Err (if b64_exn y then MalformedReceipt s else y) = Err e :> result (receipt * str) <-> ocr_fault w s e).
  { clear e. intros so x la y E S Y e. destruct (b32_fails _ _ Y) as (Nb & D). split.
    - intros X. destruct D as [(A & B)|(A & ->)].
      + rewrite B in X. injection X as <-. exact (of_element w s be tc n ch sg so x la P E S Nb A).
      + cbn [b64_exn] in X. injection X as <-. exact (of_unicode w s be tc n ch sg so x la P E S A).
    - intros F. destruct (Inv _ F) as [(so' & x' & la' & E' & S' & N' & D')|(tb & cb & sb & Et & Ec & Eg & _)].
      + assert (x' = x) as ->.
        { rewrite E in E'. clear - E' S S' Nb N'. revert so' S' E'. induction S as [|a so Ha S IH]; intros [|a' so'] S' E'; cbn [app] in E'.
          - now injection E' as <-.
          - injection E' as <- _. apply Forall_inv in S' as (b & B). exfalso. exact (Nb b B).
          - injection E' as -> _. destruct Ha as (b & B). exfalso. exact (N' b B).
          - injection E' as -> E'. apply Forall_inv_tail in S'. exact (IH so' S' E'). }
        destruct D as [(A & B)|(A & ->)], D' as [(A' & ->)|(A' & ->)]; try tauto. now rewrite B.
      + exfalso. assert (Forall (fun z => exists b, base32 z b) [tc; ch; sg]) as Fa.
        { repeat (apply Forall_cons; [eexists; eassumption|]). apply Forall_nil. }
        rewrite E in Fa. apply Forall_app in Fa as (_ & Fa). apply Forall_inv in Fa as (b & B). exact (Nb b B). }
  destruct (b32decode Py2 tc) as [tb|y] eqn:Et; unfold catch at 1; cbn [bind].
  2:{ specialize (Bad [] tc [ch; sg] y eq_refl (Forall_nil _) Et e). destruct (b64_exn y); exact Bad. }
  apply b32_spec in Et. destruct (b32decode Py2 ch) as [cb|y] eqn:Ec; unfold catch at 1; cbn [bind].
  2:{ specialize (Bad [tc] ch [sg] y eq_refl (Forall_cons _ (ex_intro _ tb Et) (Forall_nil _)) Ec e). destruct (b64_exn y); exact Bad. }
  apply b32_spec in Ec. destruct (b32decode Py2 sg) as [sb|y] eqn:Eg; unfold catch at 1; cbn [bind].
  2:{ specialize (Bad [tc; ch] sg [] y eq_refl (Forall_cons _ (ex_intro _ tb Et) (Forall_cons _ (ex_intro _ cb Ec) (Forall_nil _))) Eg e). destruct (b64_exn y); exact Bad. }
  apply b32_spec in Eg.
  assert (ocr_code s (join [c_us] ([] :: be ++ [b64encode tb; n; b64encode cb; b64encode sb]))) as Oc by (exists be, tc, n, ch, sg, tb, cb, sb; auto 10).
  rewrite (qr_diagnosis w _ e (ocr_encodable _ _ En Oc)). split.
  - intros F. exact (of_code w s _ e Oc F).
  - intros F. destruct (Inv _ F) as [(so & x & la & E & S & Nb & _)|(tb' & cb' & sb' & Et' & Ec' & Eg' & C)].
    + exfalso. assert (Forall (fun z => exists b, base32 z b) [tc; ch; sg]) as Fa.
      { repeat (apply Forall_cons; [eexists; eassumption|]). apply Forall_nil. }
      rewrite E in Fa. apply Forall_app in Fa as (_ & Fa). apply Forall_inv in Fa as (b & B). exact (Nb b B).
    + now rewrite (base32_fun _ _ _ Et Et'), (base32_fun _ _ _ Ec Ec'), (base32_fun _ _ _ Eg Eg').
Qed.

Theorem ocr3_diagnosis w s : exists e, fromOCRCode w Py3 s = Err e /\ forall e', ocr3_fault s e' <-> e' = e.
Proof.
  destruct (ocr_stage w Py3 s) as [(be & tc & n & ch & sg & P & ->)|(Np & ->)].
  - exists PyAttributeError. split; [reflexivity|]. intros e'. split.
    + intros F. destruct F as [F|]; [exfalso; exact (F _ _ _ _ _ P)|reflexivity].
    + intros ->. exact (o3_any s be tc n ch sg P).
  - exists (MalformedReceipt s). split; [reflexivity|]. intros e'. split.
    + intros F. destruct F as [F|? ? ? ? ? F]; [reflexivity|exfalso; exact (Np _ _ _ _ _ F)].
    + intros ->. now apply o3_form.
Qed.

(** ** CSV lines *)
Lemma lstrip_split sp s : exists a, s = a ++ lstrip sp s /\ Forall (fun c => sp c = true) a /\ (forall c r, lstrip sp s = c :: r -> sp c = false).
Proof.
  induction s as [|x s (a & E & F & H)]; [exists []; repeat split; auto; discriminate|]. cbn [lstrip]. destruct (sp x) eqn:X.
  - exists (x :: a). split; [now rewrite E at 1|]. auto.
  - exists []. repeat split; auto. intros c r K. now injection K as <- _.
Qed.
Lemma lstrip_unique sp : forall s a t, s = a ++ t -> Forall (fun c => sp c = true) a -> (forall c r, t = c :: r -> sp c = false) -> lstrip sp s = t.
Proof.
  intros s a t -> F H. induction F as [|x a X F IH]; cbn [app lstrip].
  - destruct t as [|c t]; [reflexivity|]. cbn [lstrip]. now rewrite (H c t eq_refl).
  - now rewrite X.
Qed.
Lemma strip_spec w s t : strip (char_isspace w) s = t <-> trimmed w s t.
Proof.
  unfold strip. set (sp := char_isspace w).
  assert (Ok1 : trimmed w s (rev (lstrip sp (rev (lstrip sp s))))).
  { destruct (lstrip_split sp s) as (a & E & Fa & Ha). destruct (lstrip_split sp (rev (lstrip sp s))) as (b & E' & Fb & Hb).
    apply (f_equal (@rev N)) in E'. rewrite rev_involutive, rev_app_distr in E'. split; [|split].
    - exists a, (rev b). split; [now rewrite <- E'|]. split; [exact Fa|]. now apply Forall_rev.
    - intros c r K. destruct (lstrip sp s) as [|x l] eqn:L; [cbn in K; discriminate K|]. rewrite K in E'. injection E' as <- _. exact (Ha x l eq_refl).
    - intros c r K. apply (f_equal (@rev N)) in K. rewrite rev_involutive, rev_app_distr in K. exact (Hb c _ K). }
  split; [intros <-; exact Ok1|]. intros ((a & b & -> & Fa & Fb) & Hf & Hl). destruct t as [|x t].
  - assert (Forall (fun c => sp c = true) (a ++ [] ++ b)) as F by (apply Forall_app; split; assumption).
    rewrite (lstrip_unique sp (a ++ [] ++ b) (a ++ [] ++ b) []); [reflexivity|now rewrite app_nil_r|exact F|discriminate].
  - rewrite (lstrip_unique sp (a ++ (x :: t) ++ b) a ((x :: t) ++ b) eq_refl Fa).
    2:{ intros c r K. injection K as <- _. exact (Hf x t eq_refl). }
    rewrite rev_app_distr. rewrite (lstrip_unique sp (rev b ++ rev (x :: t)) (rev b) (rev (x :: t)) eq_refl (Forall_rev Fb)); [apply rev_involutive|].
    intros c r K. apply (f_equal (@rev N)) in K. rewrite rev_involutive in K. cbn [rev] in K. exact (Hl c _ K).
Qed.

Theorem csv_reads w s : exists qr, csv_code w s qr /\ fromCSV w s = fromBasicCode w qr /\ forall qr', csv_code w s qr' -> qr' = qr.
Proof.
  exists (c_us :: join [c_us] (map (strip (char_isspace w)) (split_char c_semi s))).
  assert (split_char c_semi s <> []) as Ne. { destruct s as [|x s]; [discriminate|]. cbn [split_char]. destruct (x =? c_semi); [discriminate|]. destruct (split_char c_semi s); discriminate. }
  assert (forall l, l <> [] -> c_us :: join [c_us] l = join [c_us] ([] :: l)) as Jn. { intros [|x l] N; [now destruct N|reflexivity]. }
  split; [|split; [reflexivity|]].
  - exists (split_char c_semi s), (map (strip (char_isspace w)) (split_char c_semi s)). split; [symmetry; apply join_split|]. split; [exact Ne|].
    split; [apply split_char_no_sep|]. split.
    + clear. induction (split_char c_semi s) as [|x l IH]; cbn [map]; constructor; [now apply strip_spec|exact IH].
    + apply Jn. intros E. apply map_eq_nil in E. exact (Ne E).
  - intros qr' (ps & ps' & -> & N & F & T & ->). rewrite split_join by assumption.
    assert (ps' = map (strip (char_isspace w)) ps) as ->. { clear - T. induction T as [|x y l l' H T IH]; [reflexivity|]. cbn [map]. apply strip_spec in H. now rewrite H, IH. }
    symmetry. apply Jn. intros E. apply map_eq_nil in E. exact (N E).
Qed.

Lemma csv_encodable w s qr : encodable s -> csv_code w s qr -> encodable qr.
Proof.
  intros En (ps & ps' & -> & N & F & T & ->). pose proof (encodable_join _ _ En) as Ej. apply encodable_parts; [apply encodable_us|].
  intros t [<-|H]; [apply encodable_nil|]. clear - T Ej H. induction T as [|x y l l' X T IH]; [destruct H|]. destruct H as [<-|H].
  - destruct X as ((a & b & -> & _) & _). pose proof (Ej _ (or_introl eq_refl)) as E. apply encodable_app in E as (_ & E). now apply encodable_app in E.
  - apply IH; [|exact H]. intros u Hu. apply Ej. now right.
Qed.
Theorem csv_diagnosis w s e : encodable s -> fromCSV w s = Err e <-> exists qr, csv_code w s qr /\ code_fault w qr e.
Proof.
  intros En. destruct (csv_reads w s) as (qr & C & -> & U). rewrite (qr_diagnosis w qr e (csv_encodable _ _ _ En C)). split.
  - intros F. exists qr. auto.
  - intros (qr' & C' & F). now rewrite <- (U _ C').
Qed.
