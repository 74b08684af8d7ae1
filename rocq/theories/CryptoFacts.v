(** Initialisation vectors; verification without key. *)
From Coq Require Import Lia.
From Verif Require Import PyBase World Codec Algo Receipt DepBase Json KeyStore VerifyReceipt State DepParser Verify ListFacts CodecFacts CodecFacts2 SpecReceipt ReceiptFacts
  VerifyFacts SpecDep DepFacts SpecCluster ClusterFacts AcceptFacts SeqFacts DepTheorems SpecCounter CounterFacts SpecCrypto.
Open Scope N_scope.

(** ** Initialisation vectors *)

Lemma utf8_injective s t b : utf8_encode s = Ok b -> utf8_encode t = Ok b -> s = t.
Proof. intros H H'. apply utf8_decode_encode in H. apply utf8_decode_encode in H'. rewrite H in H'. now apply Ok_inj in H'. Qed.

Lemma same_iv w reg id id' iv : initial_vector w reg id iv -> initial_vector w reg id' iv -> id <> id' -> half_collision w.
Proof.
  intros (a & b & h & Ea & Eb & Eh & L) (a' & b' & h' & Ea' & Eb' & Eh' & _) N.
  rewrite Ea in Ea'. apply Ok_inj in Ea'. subst a'. exists (a ++ b), (a ++ b'). split.
  - intros E. apply app_inv_head in E. subst b'. apply N. exact (utf8_injective _ _ _ Eb Eb').
  - rewrite Eh, Eh'. now rewrite !firstn_app, L, Nat.sub_diag, !firstn_O, !app_nil_r.
Qed.

Lemma ids_distinct w dep ks key c idx c' items : hash_ok w -> verifyDEP w dep ks key c idx = (c', None) -> dep_items w ks dep items -> NoDup (ids items).
Proof.
  intros HO V D. destruct (c_used c) as [l|mi ma] eqn:U.
  - destruct (unique_ids_set w dep ks key c idx c' l HO U V) as (b & r & a & items' & p & l' & _ & D' & _ & N & _).
    now rewrite (dep_items_fun _ _ _ _ _ D D').
  - destruct (unique_ids_sorted w dep ks key c idx c' mi ma HO U V) as (b & r & a & items' & p & _ & D' & _ & N & _).
    now rewrite (dep_items_fun _ _ _ _ _ D D').
Qed.

Theorem vectors_differ w dep ks key c idx c' items l1 i l2 j l3 iv : hash_ok w -> verifyDEP w dep ks key c idx = (c', None) ->
  dep_items w ks dep items -> items = l1 ++ i :: l2 ++ j :: l3 ->
  initial_vector w (r_registerId (i_rec i)) (r_receiptId (i_rec i)) iv ->
  initial_vector w (r_registerId (i_rec j)) (r_receiptId (i_rec j)) iv -> half_collision w.
Proof.
  intros HO V D E I J. pose proof (ids_distinct w dep ks key c idx c' items HO V D) as N.
  destruct (consistency w dep ks key c idx c' HO V) as (b & r & a & items' & p & _ & D' & _ & C & _).
  rewrite (dep_items_fun _ _ _ _ _ D' D) in C. destruct (C _ _ _ _ _ E) as (R & _). rewrite R in J.
  apply (same_iv w _ _ _ iv I J). intros X. subst items. unfold ids in N. rewrite map_app in N. cbn [map] in N.
  apply NoDup_remove_2 in N. apply N. rewrite X, map_app. cbn [map]. rewrite !in_app_iff. cbn [In]. auto.
Qed.

(** What equal vectors reveal *)
Theorem reuse w key iv d1 o1 d2 o2 i x1 x2 : counter_mode w key iv d1 o1 -> counter_mode w key iv d2 o2 ->
  nth_error d1 i = Some x1 -> nth_error d2 i = Some x2 ->
  exists y1 y2, nth_error o1 i = Some y1 /\ nth_error o2 i = Some y2 /\ N.lxor y1 y2 = N.lxor x1 x2.
Proof.
  intros [_ H1] [_ H2] E1 E2. destruct (block_exists iv (N.of_nat (i / 16))) as (b & B).
  eexists _, _. split; [exact (H1 i x1 b E1 B)|]. split; [exact (H2 i x2 b E2 B)|].
  set (k := nth (i mod 16) (w_aes w key b) 0). apply N.bits_inj. intros n. rewrite !N.lxor_spec.
  destruct (N.testbit x1 n), (N.testbit x2 n), (N.testbit k n); reflexivity.
Qed.

Theorem registers_share : exists reg1 id1 reg2 id2, reg1 <> reg2 /\ id1 <> id2
  /\ forall w, hash_ok w -> exists iv, initial_vector w reg1 id1 iv /\ initial_vector w reg2 id2 iv.
Proof.
  exists (lit "A1"), (lit "2"), (lit "A"), (lit "12"). split; [discriminate|]. split; [discriminate|].
  intros w HO. assert (exists iv, r1_iv w (lit "A1") (lit "2") = Ok iv) as (iv & E) by (eexists; reflexivity).
  exists iv. split; apply iv_iff; [exact HO|exact E|exact HO|exact E].
Qed.

(** ** Verification without key *)

Lemma valid_without w k ps reg u p l :
  valid_sequence w (Some k) ps reg u p l <-> valid_sequence w None ps reg u p l /\ counter_rule w (Some k) (s_counter reg) l.
Proof.
  unfold valid_sequence. assert (counter_rule w None (s_counter reg) l) as X by (intros k' H; discriminate). tauto.
Qed.

Lemma after_without k reg p l reg' z : l <> [] -> register_after None reg p l reg' -> turnover l z ->
  register_after (Some k) reg p l (with_counter reg' (s_counter reg + z)).
Proof.
  intros N [_ H] T. split; [congruence|]. intros l0 i E. destruct (H l0 i E) as (H1 & H2 & H3 & H4 & H5 & H6 & H7 & H8).
  unfold with_counter. cbn [s_start s_last s_counter s_restore s_chain]. repeat (split; [assumption|]). split; [discriminate|].
  intros _. exists z. auto.
Qed.

Lemma after_with k reg p l reg' : l <> [] -> register_after (Some k) reg p l reg' ->
  exists z, turnover l z /\ register_after None reg p l (with_counter reg' (s_counter reg)) /\ s_counter reg' = (s_counter reg + z)%Z.
Proof.
  intros N [_ H]. destruct (exists_last N) as (l0 & i & E). destruct (H l0 i E) as (_ & _ & _ & _ & _ & _ & _ & H8).
  destruct H8 as (z & T & C); [discriminate|]. exists z. split; [exact T|]. split; [|exact C]. split; [congruence|].
  intros l1 j E'. destruct (H l1 j E') as (H1 & H2 & H3 & H4 & H5 & H6 & _ & _).
  unfold with_counter. cbn [s_start s_last s_counter s_restore s_chain]. repeat (split; [assumption|]). split; [reflexivity|congruence].
Qed.

Theorem without_key w dep ks k c idx c' : hash_ok w ->
  verifyDEP w dep ks (Some k) c idx = (c', None) <->
  exists before reg after reg' u items z,
    selects c idx before reg after
    /\ verifyDEP w dep ks None c idx = (Cluster (before ++ reg' :: after) u, None)
    /\ dep_items w ks dep items /\ counter_rule w (Some k) (s_counter reg) items /\ turnover items z
    /\ s_counter reg' = s_counter reg
    /\ c' = Cluster (before ++ with_counter reg' (s_counter reg + z) :: after) u.
Proof.
  intros HO. split.
  - intros V. apply verifyDEP_spec in V as (b & reg & a & reg' & p & items & S & D & P & V & R & ->); [|exact HO].
    assert (items <> []) as N by (destruct D as (gs & _ & _ & _ & N); exact N).
    destruct (after_with k reg p items reg' N R) as (z & T & R' & C). apply valid_without in V as [V CR].
    exists b, reg, a, (with_counter reg' (s_counter reg)), (used_after (c_used c) items), items, z.
    split; [exact S|]. split.
    { apply verifyDEP_spec; [exact HO|]. exists b, reg, a, (with_counter reg' (s_counter reg)), p, items. auto 8. }
    split; [now apply dep_ok_items|]. split; [exact CR|]. split; [exact T|]. split; [reflexivity|].
    f_equal. f_equal. f_equal. rewrite <- C. now destruct reg'.
  - intros (b & reg & a & reg' & u & items & z & S & V & D & CR & T & C & ->).
    apply verifyDEP_spec in V as (b1 & reg1 & a1 & reg1' & p & items1 & S1 & D1 & P & V & R & E); [|exact HO].
    destruct (selects_fun _ _ _ _ _ _ _ _ S1 S) as (-> & -> & ->).
    pose proof (dep_items_fun _ _ _ _ _ (dep_ok_items _ _ _ _ D1) D) as X. subst items1.
    injection E as E Eu. apply app_inv_head in E. injection E as <-.
    assert (items <> []) as N by (destruct D1 as (gs & _ & _ & _ & N); exact N).
    apply verifyDEP_spec; [exact HO|]. exists b, reg, a, (with_counter reg' (s_counter reg + z)), p, items.
    split; [exact S|]. split; [exact D1|]. split; [exact P|]. split; [now apply valid_without|].
    split; [now apply after_without|now rewrite Eu].
Qed.
