(** Faults of printed texts. *)
From Coq Require Import Lia ZifyClasses ZifyN ZifyNat ZifyBool.
From Verif Require Import PyBase World Regex Codec PyFloat PyTime Algo Receipt ListFacts RegexFacts CodecFacts CodecFacts2 SpecReceipt FieldFacts ReceiptFacts RoundTrip RoundTrip2
  SpecReading ReadingFacts.
Open Scope N_scope.
Open Scope py_scope.

Lemma join_elements r alg : join [c_us] (payload_segments r alg) = join [c_us] (elements alg (r_fields r)).
Proof. destruct r. reflexivity. Qed.

Lemma payload_printed r alg p : toPayloadString r alg = Ok p -> p = join [c_us] (elements alg (r_fields r)).
Proof.
  unfold toPayloadString. intros E. apply bind_Ok in E as (bs & E & D).
  assert (forall l bs, mapM utf8_encode l = Ok bs -> forall s, In s l -> encodable s) as En.
  { clear. induction l as [|x l IH]; [easy|]. intros bs E s I. cbn [mapM] in E. apply bind_Ok in E as (b & Eb & (bs' & E' & _)%bind_Ok).
    destruct I as [<-|I]; [now exists b|exact (IH _ E' s I)]. }
  destruct (mapM_utf8 (payload_segments r alg) (En _ _ E)) as (bs' & E' & J & _). rewrite E in E'. apply Ok_inj in E'. subst bs'.
  rewrite <- join_elements. assert (payload_segments r alg <> []) as Ne by discriminate. apply J, utf8_decode_encode in Ne. rewrite D in Ne. now apply Ok_inj in Ne.
Qed.

Lemma count_join c l : l <> [] ->
  count_occ N.eq_dec (join [c] l) c = (Nat.pred (List.length l) + fold_right (fun s n => count_occ N.eq_dec s c + n) 0 l)%nat.
Proof.
  induction l as [|x l IH]; [congruence|]. intros _. destruct l as [|y l].
  - cbn [join fold_right List.length Nat.pred]. lia.
  - change (join [c] (x :: y :: l)) with (x ++ [c] ++ join [c] (y :: l)). rewrite !count_occ_app, IH by discriminate.
    cbn [count_occ]. destruct (N.eq_dec c c) as [_|N]; [|congruence]. cbn [List.length Nat.pred fold_right]. lia.
Qed.

Lemma clean_count c l : Forall (fun s => ~ In c s) l <-> fold_right (fun s n => count_occ N.eq_dec s c + n)%nat 0%nat l = 0%nat.
Proof.
  induction l as [|x l IH]; cbn [fold_right]; [split; constructor|]. rewrite Forall_cons_iff, IH, (count_occ_not_In N.eq_dec). lia.
Qed.

Lemma parts_separable alg f alg' f' : payload_parts (join [c_us] (elements alg f)) alg' f' -> separable alg f.
Proof.
  intros (E & N & D & Z).
  assert (Forall (fun s => ~ In c_us s) (elements alg f)) as N0.
  { apply clean_count. apply clean_count in N. pose proof (f_equal (fun s => count_occ N.eq_dec s c_us) E) as C. cbv beta in C.
    rewrite !count_join in C by discriminate. change (List.length (elements alg f)) with 13%nat in C. change (List.length (elements alg' f')) with 13%nat in C. rewrite N in C. lia. }
  split; [exact N0|].
  assert (split_char c_us (join [c_us] (elements alg f)) = split_char c_us (join [c_us] (elements alg' f'))) as S by (now rewrite E).
  rewrite !split_join in S by (assumption || discriminate). unfold elements in S. injection S as S1 _ _ _ _ _ _ _ _ _ _ _.
  apply (f_equal (fun s => count_occ N.eq_dec s c_dash)) in S1. cbv beta in S1. cbn [app] in S1. rewrite !count_occ_app, !count_occ_cons_eq in S1 by reflexivity. apply (count_occ_not_In N.eq_dec) in D, Z. rewrite D, Z in S1.
  split; apply (count_occ_not_In N.eq_dec); lia.
Qed.

Theorem printed_diagnosis w r alg h sg t e : toJWSString r alg = Ok t -> r_sig r = Some (h, sg) -> encodable t ->
  fromJWSString w t = Err e <-> printed_fault w alg (r_fields r) h sg t e.
Proof.
  intros E Sg En. rewrite (jws_diagnosis w t e En). unfold toJWSString in E. rewrite Sg in E.
  apply bind_Ok in E as (p & Ep & (pb & Epb & (hb & Ehb & E)%bind_Ok)%bind_Ok). apply Ok_inj in E. apply payload_printed in Ep. cbn [join] in E. cbn [app] in E.
  assert (is_bytes pb /\ is_bytes hb) as [Bp Bh] by (split; eapply utf8_encode_bytes; eassumption).
  pose proof (seg_nopad pb Bp) as Sp. pose proof (seg_nopad hb Bh) as Sh.
  pose proof (seg_no_dot _ _ (proj2 Sp)) as N1. pose proof (seg_no_dot _ _ (proj2 Sh)) as N2.
  assert (forall h' p' sg', jws_parts t h' p' sg' -> one_segment sg) as Seg.
  { intros h' p' sg' (x & y & hb' & pb' & E' & D & Q & Sx & _ & Sy & _).
    pose proof (seg_no_dot _ _ (proj2 Sx)) as N3. pose proof (seg_no_dot _ _ (proj2 Sy)) as N4.
    assert (split_char c_dot (b64url_nopad hb ++ c_dot :: b64url_nopad pb ++ c_dot :: sg) = split_char c_dot (x ++ [c_dot] ++ y ++ [c_dot] ++ sg')) as S by congruence.
    cbn [app] in S. rewrite !split_char_app in S by assumption. rewrite (split_char_nosep c_dot sg') in S by assumption. injection S as _ _ S.
    pose proof (join_split c_dot sg) as J. rewrite S in J. cbn [join] in J. subst sg'. split; assumption. }
  assert (one_segment sg -> jws_parts t h p sg) as Parts.
  { intros (D & Q). exists (b64url_nopad hb), (b64url_nopad pb), hb, pb. auto 10. }
  assert (forall alg' f', payload_parts p alg' f' -> separable alg (r_fields r)) as Sep. { rewrite Ep. apply parts_separable. }
  assert (separable alg (r_fields r) -> payload_parts p alg (r_fields r)) as Pay. { intros S. split; [exact Ep|exact S]. }
  split; intros F.
  - destruct F as [F|h' p' sg' F F0|h' p' sg' alg' f' F F0 F1|h' p' sg' alg' f' F F0 F1 F2|h' p' sg' f' F F0 F1|p' sg' f' e F F0 F1].
    { apply pf_segment. intros S. exact (F _ _ _ (Parts S)). }
    all: pose proof (Seg _ _ _ F) as S; destruct (parts_fun _ _ _ _ _ _ _ (Parts S) F) as (Eh & <- & <-).
    { apply pf_separator; [exact S|]. intros P. exact (F0 _ _ (Pay P)). }
    all: pose proof (Sep _ _ F0) as P; destruct (payload_fun _ _ _ _ _ (Pay P) F0) as (Ea & <-).
    + apply pf_alg; congruence.
    + apply pf_unknown; congruence.
    + apply pf_header; congruence.
    + apply pf_rest; congruence.
  - destruct F as [F|F F0|F F0 F1|F F0 F1 F2|F F0 F1 F2|e F F0 F1 F2 F3].
    + apply tf_jws. intros h' p' sg' P. exact (F (Seg _ _ _ P)).
    + apply (tf_payload w t h p sg (Parts F)). intros alg' f' P. exact (F0 (Sep _ _ P)).
    + exact (tf_alg w t h p sg alg _ (Parts F) (Pay F0) F1).
    + exact (tf_unknown w t h p sg alg _ (Parts F) (Pay F0) F1 F2).
    + subst alg. exact (tf_header w t h p sg _ (Parts F) (Pay F0) F2).
    + subst alg h. exact (tf_rest w t p sg _ e (Parts F) (Pay F0) F3).
Qed.
