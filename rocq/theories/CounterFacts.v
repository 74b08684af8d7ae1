(** Proofs about encrypted turnover counters. *)
From Coq Require Import Lia ZifyClasses ZifyN ZifyNat ZifyBool.
From Verif Require Import PyBase World Codec Algo Receipt ListFacts CodecFacts CodecFacts2 AlgoFacts SpecReceipt ReceiptFacts SpecDep VerifyFacts SpecCounter.
Open Scope N_scope.
Open Scope py_scope.

Lemma octets_be b : octets_value b = be_val b.
Proof.
  induction b as [|x b IH]; [reflexivity|]. change (x :: b) with ([x] ++ b). rewrite be_val_app, <- IH. reflexivity.
Qed.

Lemma stands_for_iff b z : is_bytes b -> stands_for b z <-> from_bytes b = z.
Proof.
  intros B. unfold stands_for, from_bytes. rewrite octets_be. unfold pow256.
  destruct (Z.leb_spec (256 ^ Z.of_nat (List.length b)) (2 * Z.of_N (be_val b))); intuition lia.
Qed.

Lemma counter_block_unique iv n b b' : counter_block iv n b -> counter_block iv n b' -> b = b'.
Proof.
  intros (L & B & V) (L1 & B1 & V1). apply be_val_inj; [assumption|assumption|congruence|]. rewrite <- !octets_be. congruence.
Qed.
Lemma ctr_inc_block iv n b : counter_block (ctr_inc iv) n b <-> counter_block iv (1 + n) b.
Proof.
  unfold counter_block. rewrite (octets_be (ctr_inc iv)), (octets_be iv). unfold ctr_inc. rewrite be_val_bytes.
  change (256 ^ N.of_nat 16) with (2 ^ 128). change 340282366920938463463374607431768211456 with (2 ^ 128).
  rewrite N.mod_mod by discriminate. rewrite N.add_mod_idemp_l by discriminate. now rewrite N.add_assoc.
Qed.
Lemma block_iv iv b : List.length iv = 16%nat -> is_bytes iv -> counter_block iv 0 b -> b = iv.
Proof.
  intros L B H. apply (counter_block_unique iv 0); [exact H|]. split; [exact L|]. split; [exact B|].
  rewrite N.add_0_r, N.mod_small; [reflexivity|]. rewrite octets_be. pose proof (be_val_bound iv B) as X. rewrite L in X. exact X.
Qed.

Lemma stream_nth w key : aes_ok w -> forall n iv i b, List.length iv = 16%nat -> is_bytes iv -> (i < 16 * n)%nat ->
  counter_block iv (N.of_nat (i / 16)) b -> nth i (ctr_stream w key iv n) 0 = nth (i mod 16) (w_aes w key b) 0.
Proof.
  intros A. induction n as [|n IH]; intros iv i b L B Hi Hb; [lia|]. cbn [ctr_stream].
  destruct (A key iv) as [La _]. destruct (Nat.lt_ge_cases i 16) as [Hlt|Hge].
  - rewrite app_nth1 by lia. rewrite Nat.div_small in Hb by exact Hlt. apply block_iv in Hb; [|assumption|assumption].
    rewrite Nat.mod_small by exact Hlt. now rewrite Hb.
  - rewrite app_nth2 by lia. rewrite La. 
    assert (i = (i - 16) + 1 * 16)%nat as E by lia.
    assert (i / 16 = S ((i - 16) / 16))%nat as E1 by (rewrite E at 1; rewrite Nat.div_add by lia; lia).
    assert (i mod 16 = (i - 16) mod 16)%nat as E2 by (rewrite E at 1; now rewrite Nat.mod_add by lia).
    rewrite E2. apply IH.
    + apply be_bytes_length.
    + apply be_bytes_is_bytes.
    + lia.
    + apply ctr_inc_block. rewrite E1 in Hb. replace (1 + N.of_nat ((i - 16) / 16)) with (N.of_nat (S ((i - 16) / 16))) by lia. exact Hb.
Qed.

Lemma xor_nth a : forall b i x, nth_error a i = Some x -> (List.length a <= List.length b)%nat ->
  nth_error (xor_bytes a b) i = Some (N.lxor x (nth i b 0)).
Proof.
  induction a as [|y a IH]; intros b i x H L; [destruct i; discriminate|].
  destruct b as [|z b]; [cbn in L; lia|]. destruct i as [|i]; cbn [nth_error xor_bytes nth] in *.
  - now injection H as ->.
  - apply IH; [exact H|cbn [List.length] in L; lia].
Qed.

Lemma counter_mode_ctr w key iv data : aes_ok w -> List.length iv = 16%nat -> is_bytes iv ->
  counter_mode w key iv data (aes256ctr w iv key data).
Proof.
  intros A L B. split; [now apply aes256ctr_length|]. intros i x b Hx Hb. unfold aes256ctr.
  rewrite (xor_nth _ _ _ _ Hx) by now apply ctr_enough. f_equal. f_equal. apply stream_nth; try assumption.
  assert (i < List.length data)%nat by (apply nth_error_Some; congruence).
  pose proof (Nat.div_mod (List.length data) 16 ltac:(lia)). pose proof (Nat.mod_upper_bound (List.length data) 16 ltac:(lia)). lia.
Qed.

Lemma block_exists iv n : exists b, counter_block iv n b.
Proof.
  exists (be_bytes 16 ((octets_value iv + n) mod 2 ^ 128)). split; [apply be_bytes_length|]. split; [apply be_bytes_is_bytes|].
  rewrite octets_be, be_val_bytes. change (256 ^ N.of_nat 16) with (2 ^ 128). now rewrite N.mod_mod by discriminate.
Qed.
Lemma nth_error_ext {A} (a b : list A) : List.length a = List.length b -> (forall i, (i < List.length a)%nat -> nth_error a i = nth_error b i) -> a = b.
Proof.
  revert b. induction a as [|x a IH]; intros [|y b] L H; try discriminate; [reflexivity|]. f_equal.
  - specialize (H 0%nat ltac:(cbn; lia)). now injection H.
  - apply IH; [now injection L|]. intros i Hi. apply (H (S i)). cbn. lia.
Qed.
Lemma counter_mode_iff w key iv data out : aes_ok w -> List.length iv = 16%nat -> is_bytes iv ->
  counter_mode w key iv data out <-> out = aes256ctr w iv key data.
Proof.
  intros A L B. split; [|intros ->; now apply counter_mode_ctr]. intros [Lo H]. destruct (counter_mode_ctr w key iv data A L B) as [Lc Hc].
  apply nth_error_ext; [congruence|]. intros i Hi.
  destruct (nth_error data i) as [x|] eqn:E; [|apply nth_error_None in E; lia].
  destruct (block_exists iv (N.of_nat (i / 16))) as [b Hb]. now rewrite (H i x b E Hb), (Hc i x b E Hb).
Qed.

Lemma iv_iff w reg rid iv : hash_ok w -> initial_vector w reg rid iv <-> r1_iv w reg rid = Ok iv.
Proof.
  intros Hh. unfold initial_vector, r1_iv. split.
  - intros (a & b & h & -> & -> & E & L). cbn [bind]. rewrite E. rewrite <- L. now rewrite firstn_app, Nat.sub_diag, firstn_all, app_nil_r.
  - destruct (utf8_encode reg) as [a|]; cbn [bind]; [|discriminate]. destruct (utf8_encode rid) as [b|]; cbn [bind]; [|discriminate].
    intros E. apply Ok_inj in E. subst iv. exists a, b, (skipn 16 (w_sha256 w (a ++ b))). split; [reflexivity|]. split; [reflexivity|].
    split; [now rewrite firstn_skipn|]. destruct (Hh (a ++ b)) as [L _]. rewrite firstn_length, L. reflexivity.
Qed.
Lemma iv_facts w reg rid iv : hash_ok w -> initial_vector w reg rid iv -> List.length iv = 16%nat /\ is_bytes iv.
Proof.
  intros Hh (a & b & h & _ & _ & E & L). split; [exact L|]. destruct (Hh (a ++ b)) as [_ B]. rewrite E in B. now apply Forall_app in B.
Qed.

Lemma reads_ids w s r : reads w s r -> exists a b, utf8_encode (r_registerId r) = Ok a /\ utf8_encode (r_receiptId r) = Ok b.
Proof.
  intros (f & sg & (h & p & hb & pb & gb & _ & _ & _ & _ & P & _) & (F & _)). rewrite <- F in P.
  assert (encodable (payload_text (r_fields r))) as E by (exists pb; exact P). unfold payload_text in E. cbn [join] in E.
  rewrite !encodable_app in E. destruct E as (_ & _ & _ & _ & [a A] & _ & [b B] & _). exists a, b. split; [exact A|exact B].
Qed.

(** The encryption of a counter *)
Lemma encrypt_spec w reg rid z key size ct : hash_ok w -> aes_ok w ->
  r1_encrypt w reg rid z key size = Ok ct <->
  exists iv plain, initial_vector w reg rid iv /\ List.length plain = size /\ is_bytes plain /\ stands_for plain z
    /\ counter_mode w key iv plain ct.
Proof.
  intros Hh Ha. unfold r1_encrypt. split.
  - intros H. destruct (r1_iv w reg rid) as [iv|] eqn:Ei; [|discriminate]. cbn [bind] in H.
    destruct (to_bytes z size) as [pt|] eqn:Et; [|discriminate]. cbn [bind] in H. apply Ok_inj in H. subst ct.
    apply (iv_iff _ _ _ _ Hh) in Ei. destruct (iv_facts _ _ _ _ Hh Ei) as [L B]. pose proof (to_bytes_length _ _ _ Et) as [Lp Bp].
    exists iv, pt. split; [exact Ei|]. split; [exact Lp|]. split; [exact Bp|]. split; [|now apply counter_mode_ctr].
    apply stands_for_iff; [exact Bp|]. now apply from_to_bytes in Et.
  - intros (iv & pt & Ei & Lp & Bp & S & C). destruct (iv_facts _ _ _ _ Hh Ei) as [L B]. apply (iv_iff _ _ _ _ Hh) in Ei. rewrite Ei. cbn [bind].
    apply (stands_for_iff _ _ Bp) in S. pose proof (from_bytes_fits pt Bp) as F. rewrite S, Lp in F. apply to_bytes_fits in F as [pt' Ep]. rewrite Ep. cbn [bind].
    pose proof (to_bytes_length _ _ _ Ep) as [Lp' Bp']. pose proof (from_to_bytes _ _ _ Ep) as S'.
    assert (pt = pt') as <- by (apply from_bytes_inj; try assumption; congruence).
    apply counter_mode_iff in C; [|assumption|assumption|assumption]. now rewrite C.
Qed.

(** Decryption of a receipt *)
Lemma decryptTC_eq w s r key : reads w s r ->
  (~ standard r -> decryptTC w r key = Err PyException)
  /\ (standard r -> List.length key <> 32%nat -> decryptTC w r key = Err InvalidKey)
  /\ (standard r -> List.length key = 32%nat -> exists ct, b64decode (r_encTC r) = Ok ct
        /\ decryptTC w r key = r1_decrypt w (r_registerId r) (r_receiptId r) ct key).
Proof.
  intros R. unfold decryptTC. rewrite (reads_isDummy _ _ _ R), (reads_isReversal _ _ _ R). cbn [bind].
  destruct (reads_tc _ _ _ R) as [ct D]. apply b64decode_str_iff in D as D'. rewrite D'. rewrite <- standardb_iff.
  unfold raiseForKey, r1_verifyKey. destruct (trainb r), (cancelb r); cbn [orb negb bind]; (split; [|split]); try tauto; try discriminate; intros _ L.
  - apply Nat.eqb_neq in L. now rewrite L.
  - apply Nat.eqb_eq in L. rewrite L. cbn [bind]. exists ct. now split.
Qed.
Lemma decryptTC_spec w s r key z : hash_ok w -> aes_ok w -> reads w s r ->
  decryptTC w r key = Ok z <-> shows_counter w key r z.
Proof.
  intros Hh Ha R. destruct (decryptTC_eq w s r key R) as (E1 & E2 & E3). unfold shows_counter.
  assert (standard r \/ ~ standard r) as [S|S] by (rewrite <- standardb_iff; destruct (trainb r || cancelb r); intuition discriminate).
  2: { rewrite (E1 S). split; [discriminate|tauto]. }
  destruct (Nat.eq_dec (List.length key) 32) as [L|L]; [|rewrite (E2 S L); split; [discriminate|tauto]].
  destruct (E3 S L) as (ct & D & ->). unfold r1_decrypt. split.
  - intros H. split; [exact S|]. split; [exact L|]. destruct (r1_iv w (r_registerId r) (r_receiptId r)) as [iv|] eqn:Ei; [|discriminate].
    cbn [bind] in H. apply Ok_inj in H. apply (iv_iff _ _ _ _ Hh) in Ei. destruct (iv_facts _ _ _ _ Hh Ei) as [Li Bi].
    exists ct, iv, (aes256ctr w iv key ct). split; [exact D|]. split; [exact Ei|]. split; [now apply counter_mode_ctr|].
    apply stands_for_iff; [apply aes256ctr_bytes; [exact Ha|exact (b64decode_bytes _ _ D)]|exact H].
  - intros (_ & _ & ct' & iv & plain & D' & Ei & C & F). rewrite D in D'. apply Ok_inj in D'. subst ct'.
    destruct (iv_facts _ _ _ _ Hh Ei) as [Li Bi]. apply (iv_iff _ _ _ _ Hh) in Ei. rewrite Ei. cbn [bind].
    apply counter_mode_iff in C; [|assumption|assumption|assumption]. subst plain.
    apply stands_for_iff in F; [|apply aes256ctr_bytes; [exact Ha|exact (b64decode_bytes _ _ D)]]. now rewrite F.
Qed.
Lemma decryptTC_total w s r key : hash_ok w -> aes_ok w -> reads w s r ->
  (standard r -> List.length key = 32%nat -> exists z, shows_counter w key r z)
  /\ (forall z, decryptTC w r key = Ok z <-> shows_counter w key r z)
  /\ (~ standard r -> decryptTC w r key = Err PyException)
  /\ (standard r -> List.length key <> 32%nat -> decryptTC w r key = Err InvalidKey).
Proof.
  intros Hh Ha R. destruct (decryptTC_eq w s r key R) as (E1 & E2 & E3).
  split; [|split; [intros z; now apply decryptTC_spec with (s := s)|split; assumption]].
  intros S L. destruct (E3 S L) as (ct & D & E). destruct (reads_ids _ _ _ R) as (a & b & Ea & Eb).
  assert (exists z, decryptTC w r key = Ok z) as [z Z].
  { rewrite E. unfold r1_decrypt, r1_iv. rewrite Ea, Eb. cbn [bind]. eexists. reflexivity. }
  exists z. now apply (decryptTC_spec w s r key z Hh Ha R).
Qed.
Lemma shows_counter_unique w s r key z z' : hash_ok w -> aes_ok w -> reads w s r ->
  shows_counter w key r z -> shows_counter w key r z' -> z = z'.
Proof.
  intros Hh Ha R A B. apply (decryptTC_spec _ _ _ _ _ Hh Ha R) in A, B. rewrite A in B. now apply Ok_inj in B.
Qed.
