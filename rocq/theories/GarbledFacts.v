(** Overrides that make a receipt's text unreadable. *)
From Coq Require Import Lia ZifyClasses ZifyN ZifyNat ZifyBool.
From Verif Require Import PyBase World Regex Codec PyFloat PyTime Algo Receipt ListFacts RegexFacts CodecFacts CodecFacts2 SpecReceipt FieldFacts ReceiptFacts RoundTrip RoundTrip2
  AlgoFacts KeyStore VerifyReceipt SpecDep SpecAmount CashReg SpecCashReg CashRegFacts Override SpecOverride OverrideFacts SpecReading ReadingFacts PrintedFacts SpecGarbled.
Open Scope N_scope.
Open Scope py_scope.

Definition over_f (o : override) (f : fields) : fields :=
  Fields (given (ov_zda o) (f_zda f)) (given (ov_register o) (f_register f)) (given (ov_id o) (f_receipt f)) (given (ov_time o) (f_time f))
    (given (ov_a o) (f_a f)) (given (ov_b o) (f_b f)) (given (ov_c o) (f_c f)) (given (ov_d o) (f_d f)) (given (ov_e o) (f_e f))
    (given (ov_tc o) (f_tc f)) (given (ov_serial o) (f_serial f)) (given (ov_chain o) (f_chain f)).

Lemma sign_parts_decodes r pb sb r' :
  sign_parts r (b64url_nopad es256_header ++ [c_dot] ++ b64url_nopad pb ++ [c_dot] ++ b64url_nopad sb) = Ok r' ->
  exists b, seg_decodes (b64url_nopad sb) b.
Proof.
  unfold sign_parts. cbn [app]. rewrite split_char_app by apply b64url_nopad_nodot.
  rewrite split_char_app by apply b64url_nopad_nodot. rewrite split_char_nosep by apply b64url_nopad_nodot.
  destruct (seg_nopad es256_header header_is_bytes) as [_ H]. apply b64url_decode_str_iff in H. rewrite H. cbn [bind].
  rewrite (utf8_decode_encode es256_header es256_header header_bytes). cbn [bind]. intros E. now apply sign_receipt_spec in E as [E _].
Qed.

Lemma over_shape w v g o q g' r : hash_ok w -> aes_ok w -> register_ok g -> request_ok w v q -> ov_size o = None ->
  issue_over w g (lit "R1") o q = (g', Ok r) ->
  exists tc ch sg, wf_printed w (request_fields g q tc ch) /\ one_segment sg /\ (exists b, seg_decodes sg b)
    /\ r_fields r = over_f o (request_fields g q tc ch) /\ r_sig r = Some (given (ov_header o) es256_header, given (ov_signature o) sg).
Proof.
  intros Hh Ha G Q Ns. unfold issue_over. change (known_alg (lit "R1")) with true. cbv iota beta.
  match goal with |- context [mk_receipt w ?a ?b ?c ?d ?e ?f ?x ?y ?z ?k ?l ?m] =>
    pose proof (mk_receipt_spec w (Fields a b c d e f x y z k l m)) as Sp end.
  unfold mk_of in Sp. rsimpl.
  destruct (mk_receipt _ _ _ _ _ _ _ _ _ _ _ _ _) as [rec|e]; [|discriminate].
  destruct (proj1 (Sp rec) eq_refl) as [_ (Fr & _ & _)]. clear Sp.
  cbv zeta. destruct (if q_dummy q then _ else _) as [c|e]; [|discriminate].
  destruct (complete_over _ _ _ _ _ _) as [[rec' jws]|e] eqn:Ec; [|discriminate].
  intros E. injection E as _ E. apply bind_Ok in E as (r1 & Es & E). apply Ok_inj in E. subst r.
  unfold complete_over in Ec. apply bind_Ok in Ec as (tb & Etb & Ec). apply bind_Ok in Ec as (pc & Epc & Ec).
  apply bind_Ok in Ec as (pay & _ & Ec). apply bind_Ok in Ec as (jws' & Ej & Ec). apply Ok_inj in Ec. injection Ec as <- <-.
  destruct (sys_sign_shape _ _ _ _ Ej) as (pb & sb & _ & ->). pose proof (sign_parts_decodes _ _ _ _ Es) as Sd. apply sign_parts_shape in Es. subst r1.
  assert (is_bytes tb /\ (tb = lit "TRA" \/ tb = lit "STO" \/ (5 <= List.length tb <= 16)%nat)) as [Bt Lt].
  { clear -Etb Ha G Ns. destruct (q_dummy q). { apply Ok_inj in Etb. subst tb. split; [vm_compute; repeat constructor|auto]. }
    destruct (q_reversal q). { apply Ok_inj in Etb. subst tb. split; [vm_compute; repeat constructor|auto]. }
    apply bind_Ok in Etb as (_ & _ & Etb). destruct (decrypt_encrypt w _ _ _ _ _ _ Ha Etb) as (_ & L & By). split; [exact By|]. right. right.
    cbn [with_counter with_size cr_size] in L. rewrite Ns in L. cbn [given] in L. rewrite L. exact (proj1 (proj2 (proj2 G))). }
  assert (is_bytes pc /\ List.length pc = 8%nat) as [Bp Lp].
  { clear -Epc Hh. unfold r1_chain, r1_hash in Epc. apply bind_Ok in Epc as (h & (x & _ & Eh)%bind_Ok & E). apply Ok_inj in E, Eh. subst. destruct (Hh x) as [L B].
    split; [now apply firstn_bytes|]. rewrite firstn_length, L. reflexivity. }
  exists (b64encode tb), (b64encode pc), (b64url_nopad sb).
  pose proof (b64decode_encode tb Bt) as Dt. pose proof (b64decode_encode pc Bp) as Dp.
  split; [|split; [|split; [exact Sd|]]].
  - split. { apply (request_wf w v); [exact G|exact Q| |eauto]. exists tb. split; [exact Dt|]. tauto. }
    split. { unfold request_fields. rsimpl. apply tc_nonempty; [|exact Bt]. destruct Lt as [->|[->|L]]; try discriminate. intros ->. cbn in L. lia. }
    split. { exists pc. split; [exact Dp|exact Lp]. }
    apply Q.
  - split; [apply b64url_nopad_nodot|apply b64url_nopad_noeq].
  - clear -Fr. unfold r_fields in Fr. injection Fr as F1 F2 F3 F4 F5 F6 F7 F8 F9 F10 F11 F12. split.
    + unfold mangle_signature, rec_of, r_fields, over_f, request_fields. rsimpl. rewrite <- F1, <- F2, <- F3, <- F4, <- F5, <- F6, <- F7, <- F8, <- F9, <- F11.
      destruct (ov_tc o) eqn:Et, (ov_chain o) eqn:Ec; unfold set_tc, set_previousChain, mangle; rsimpl; rewrite ?Et, ?Ec; reflexivity.
    + unfold mangle_signature, rec_of. rsimpl. reflexivity.
Qed.

Lemma alg_not w s x : alg_text w s -> x = c_us \/ x = c_dash -> ~ In x s.
Proof.
  intros (c & ds & nl & -> & Hn & Hc & Hd) Hx Hin.
  assert (x < 128 /\ is_09 x = false /\ x <> c_nl) as (X1 & X2 & X3) by (destruct Hx as [->| ->]; repeat split; discriminate).
  cbn [In] in Hin. unfold digit19 in Hc. destruct Hin as [<-|[<-|Hin]]; [destruct Hx; discriminate|destruct Hx as [->| ->]; unfold c_us, c_dash in Hc; lia|].
  apply in_app_or in Hin as [Hin|Hin]; [now apply (digits_not w ds x)|now apply (final_nl_not nl x)].
Qed.

Lemma base_separable w f : wf_printed w f -> separable (lit "R1") f.
Proof.
  intros W. split; [exact (payload_segs_no_us w f W)|]. split; [cbn; intuition discriminate|]. destruct W as [(_ & _ & _ & _ & Z & _) _]. apply (zda_not _ _ _ Z). auto.
Qed.

Lemma element_in x o f : only_element x o -> In c_us x -> exists y, In y (elements (lit "R1") (over_f o f)) /\ In c_us y.
Proof.
  intros E U. destruct E as [| | | |o A| | |]; [|..|destruct A| | |]; unfold over_f, elements, only_zda, only_register, only_id, only_time, only_sum, only_tc, only_serial, only_chain;
    cbn [ov_zda ov_register ov_id ov_time ov_a ov_b ov_c ov_d ov_e ov_tc ov_serial ov_chain given]; rsimpl.
  1: exists (lit "R1" ++ [c_dash] ++ x); split; [cbn [In]; tauto|apply in_or_app; right; now right].
  all: exists x; split; [cbn [In]; tauto|exact U].
Qed.

Lemma element_prefix x o : only_element x o -> ov_prefix o = None /\ ov_header o = None /\ ov_signature o = None /\ ov_size o = None.
Proof. intros E. destruct E as [| | | |o A| | |]; [|..|destruct A| | |]; auto. Qed.

Lemma garbled_size w q t o e : garbled w q t o e -> ov_size o = None.
Proof. intros J. destruct J as [| |p H|x o E| | | | | | |x o A| | | | | | | | |]; try reflexivity; [now apply element_prefix in E|now destruct A]. Qed.

Ltac opened := unfold over_f, only_zda, only_register, only_id, only_time, only_sum, only_tc, only_serial, only_chain, only_prefix, only_header, only_signature, request_fields in *;
    cbn [ov_zda ov_register ov_id ov_time ov_a ov_b ov_c ov_d ov_e ov_tc ov_serial ov_chain ov_prefix ov_header ov_signature given] in *; rsimpl.

Theorem garbled_printed w v g o q g' r t e : hash_ok w -> aes_ok w -> register_ok g -> request_ok w v q ->
  issue_over w g (lit "R1") o q = (g', Ok r) -> garbled w q t o e ->
  exists h sg, r_sig r = Some (h, sg) /\ printed_fault w (given (ov_prefix o) (lit "R1")) (r_fields r) h sg t e.
Proof.
  intros Hh Ha G Q Ei J. destruct (over_shape w v g o q g' r Hh Ha G Q (garbled_size _ _ _ _ _ J) Ei) as (tc & ch & sg & W & S & Sd & Fr & Es).
  exists (given (ov_header o) es256_header), (given (ov_signature o) sg). split; [exact Es|]. rewrite Fr. clear Fr Es Ei.
  pose proof (base_separable w _ W) as Sp. destruct W as (Wf & Wc & (cb & Dc & Lc) & _).
  pose proof Wf as (I1 & _ & R1 & _ & Z & (d & T) & A & B & C & D & E & (tb & Dt & Lt) & _ & Pr).
  assert (f_receipt (request_fields g q tc ch) = q_id q) as Eid by reflexivity.
  pose proof Sp as (Su & _ & Sz). unfold elements in Su.
  apply Forall_cons_iff in Su as [_ Su]. apply Forall_cons_iff in Su as [U1 Su]. apply Forall_cons_iff in Su as [U2 Su]. apply Forall_cons_iff in Su as [U3 Su].
  apply Forall_cons_iff in Su as [U4 Su]. apply Forall_cons_iff in Su as [U5 Su]. apply Forall_cons_iff in Su as [U6 Su]. apply Forall_cons_iff in Su as [U7 Su].
  apply Forall_cons_iff in Su as [U8 Su]. apply Forall_cons_iff in Su as [U9 Su]. apply Forall_cons_iff in Su as [U10 Su]. apply Forall_cons_iff in Su as [U11 Su]. apply Forall_inv in Su.
  assert (forall z, ~ In c_us z -> ~ In c_us (lit "R1" ++ [c_dash] ++ z)) as Uz.
  { intros z Nz Hin. apply in_app_or in Hin as [Hin|Hin]; [cbn in Hin; intuition discriminate|]. destruct Hin as [Hin|Hin]; [discriminate Hin|exact (Nz Hin)]. }
  assert (~ In c_dash (lit "R1")) as Nd by (cbn; intuition discriminate).
  assert (forall f', f_zda f' = f_zda (request_fields g q tc ch) \/ (~ In c_us (f_zda f') /\ ~ In c_dash (f_zda f')) ->
    ~ In c_us (f_register f') -> ~ In c_us (f_receipt f') -> ~ In c_us (f_time f') -> ~ In c_us (f_a f') -> ~ In c_us (f_b f') -> ~ In c_us (f_c f')
    -> ~ In c_us (f_d f') -> ~ In c_us (f_e f') -> ~ In c_us (f_tc f') -> ~ In c_us (f_serial f') -> ~ In c_us (f_chain f') -> separable (lit "R1") f') as Sep.
  { intros f' Hz H2 H3 H4 H5 H6 H7 H8 H9 H10 H11 H12. assert (~ In c_us (lit "R1" ++ [c_dash] ++ f_zda f') /\ ~ In c_dash (f_zda f')) as [H1 H0].
    { destruct Hz as [->|[Hz Hz']]; [auto|]. split; [now apply Uz|exact Hz']. }
    split; [|split; assumption]. unfold elements. do 12 (apply Forall_cons; [assumption || easy|]). constructor; [assumption|constructor]. }
  assert (forall f' e', separable (lit "R1") f' -> has_counter f' -> field_fault w f' e' -> printed_fault w (lit "R1") f' es256_header sg t e') as Fld.
  { intros f' e' Sf Hc Hf. apply pf_rest; auto. now apply rf_fields. }
  destruct J as [h Nh|p Ha' Np|p Np|x o Eo Ux|x Dx| | |x Nz Ux Dx|x Zx Nz|x Nt Ux|x o Ao Na Ux| |x Ne Nk Ux|x Kx Az Ux|x Kx Az Ux|x Nc|x c Ic Ec Nt Ux|x Nb Ux|s Ns|s Ss Nb].
  - opened. now apply pf_header.
  - opened. apply pf_unknown; auto. split; [|split; [apply (alg_not w p _ Ha'); auto|exact Sz]].
    unfold elements. rsimpl. apply Forall_cons; [easy|]. apply Forall_cons; [|do 10 (apply Forall_cons; [assumption|]); constructor; [assumption|constructor]].
    intros Hin. apply in_app_or in Hin as [Hin|Hin]; [revert Hin; apply (alg_not w p _ Ha'); auto|]. apply U1, in_or_app. now right.
  - opened. assert (forall P : Prop, (P \/ ~ P) -> (P -> printed_fault w p (Fields (sys_zda (q_sys q)) (cr_id g) (q_id q) (strftime (q_time q)) (fmt_sum (q_a q)) (fmt_sum (q_b q)) (fmt_sum (q_c q)) (fmt_sum (q_d q)) (fmt_sum (q_e q)) tc (sys_serial (q_sys q)) ch) es256_header sg t (MalformedReceipt t))
        -> (~ P -> printed_fault w p (Fields (sys_zda (q_sys q)) (cr_id g) (q_id q) (strftime (q_time q)) (fmt_sum (q_a q)) (fmt_sum (q_b q)) (fmt_sum (q_c q)) (fmt_sum (q_d q)) (fmt_sum (q_e q)) tc (sys_serial (q_sys q)) ch) es256_header sg t (MalformedReceipt t))
        -> printed_fault w p (Fields (sys_zda (q_sys q)) (cr_id g) (q_id q) (strftime (q_time q)) (fmt_sum (q_a q)) (fmt_sum (q_b q)) (fmt_sum (q_c q)) (fmt_sum (q_d q)) (fmt_sum (q_e q)) tc (sys_serial (q_sys q)) ch) es256_header sg t (MalformedReceipt t)) as By by tauto.
    apply (By (separable p (Fields (sys_zda (q_sys q)) (cr_id g) (q_id q) (strftime (q_time q)) (fmt_sum (q_a q)) (fmt_sum (q_b q)) (fmt_sum (q_c q)) (fmt_sum (q_d q)) (fmt_sum (q_e q)) tc (sys_serial (q_sys q)) ch))).
    + destruct (in_dec N.eq_dec c_dash p) as [Ip|Ip]; [right; intros (_ & X & _); exact (X Ip)|].
      destruct (in_dec N.eq_dec c_us p) as [Iu|Iu].
      * right. intros (X & _). unfold elements in X. rewrite Forall_forall in X. apply (X (p ++ [c_dash] ++ sys_zda (q_sys q))); [cbn [In]; auto|]. apply in_or_app. now left.
      * left. split; [|split; [exact Ip|exact Sz]]. unfold elements. rsimpl. apply Forall_cons; [easy|]. apply Forall_cons; [|do 10 (apply Forall_cons; [assumption|]); constructor; [assumption|constructor]].
        intros Hin. apply in_app_or in Hin as [Hin|Hin]; [exact (Iu Hin)|]. apply U1, in_or_app. now right.
    + intros Sq. now apply pf_alg.
    + intros Sq. now apply pf_separator.
  - destruct (element_prefix x o Eo) as (-> & -> & -> & _). cbn [given]. apply pf_separator; [exact S|]. intros (X & _). rewrite Forall_forall in X.
    destruct (element_in x o (request_fields g q tc ch) Eo Ux) as (y & Iy & Uy). exact (X y Iy Uy).
  - opened. apply pf_separator; [exact S|]. intros (_ & _ & X). exact (X Dx).
  - opened. apply Fld; [apply Sep; rsimpl; auto|exact Wc|]. now apply ff_no_id.
  - opened. apply Fld; [apply Sep; rsimpl; auto|exact Wc|]. match goal with |- field_fault w ?f _ => apply (ff_unsound w f I1) end. intros (X & _). now apply X.
  - opened. apply Fld; [apply Sep; rsimpl; auto|exact Wc|]. match goal with |- field_fault w ?f _ => apply (ff_unsound w f I1) end. intros (_ & X & _). exact (Nz X).
  - opened. apply Fld; [apply Sep; rsimpl; auto; right; split; apply (zda_not _ _ _ Zx); auto|exact Wc|].
    assert (sound_fields w (Fields x (cr_id g) (q_id q) (strftime (q_time q)) (fmt_sum (q_a q)) (fmt_sum (q_b q)) (fmt_sum (q_c q)) (fmt_sum (q_d q)) (fmt_sum (q_e q)) tc (sys_serial (q_sys q)) ch)) as So.
    { unfold sound_fields. rsimpl. do 2 (split; [assumption|]). split; [eauto|]. do 5 (split; [assumption|]). split; [eauto|]. split; [eauto|].
      intros X. rewrite X in Pr. clear -Pr. destruct Pr as [[_ K]|[_ K]]; [apply key_id_spec in K|apply cert_serial_spec in K]; vm_compute in K; intuition discriminate. }
    match goal with |- field_fault w ?f _ => apply (ff_provider w f I1 So) end; unfold known_serial, right_provider; rsimpl; [tauto|].
    pose proof (key_not_serial w (sys_serial (q_sys q))) as Ks. intros X. apply Nz. tauto.
  - opened. apply Fld; [apply Sep; rsimpl; auto|exact Wc|]. match goal with |- field_fault w ?f _ => apply (ff_unsound w f I1) end. intros (_ & _ & (d' & X) & _). exact (Nt d' X).
  - assert (ov_prefix o = None /\ ov_header o = None /\ ov_signature o = None) as (-> & -> & ->) by (now destruct Ao). cbn [given].
    destruct Ao; opened; (apply Fld; [apply Sep; rsimpl; auto|exact Wc|]); match goal with |- field_fault w ?f _ => apply (ff_unsound w f I1) end; intros X; apply Na; apply X.
  - opened. apply Fld; [apply Sep; rsimpl; auto|exact Wc|]. match goal with |- field_fault w ?f _ => apply (ff_unsound w f I1) end. intros (_ & _ & _ & _ & _ & _ & _ & _ & _ & _ & X). now apply X.
  - opened. apply Fld; [apply Sep; rsimpl; auto|exact Wc|]. match goal with |- field_fault w ?f _ => apply (ff_serial w f I1) end; [|exact Nk].
    unfold sound_fields. rsimpl. do 2 (split; [assumption|]). split; [eauto|]. do 5 (split; [assumption|]). split; [eauto|]. split; [eauto|exact Ne].
  - opened. apply Fld; [apply Sep; rsimpl; auto|exact Wc|]. match goal with |- field_fault w ?f _ => apply (ff_provider w f I1) end; unfold known_serial, right_provider; rsimpl.
    + unfold sound_fields. rsimpl. do 2 (split; [assumption|]). split; [eauto|]. do 5 (split; [assumption|]). split; [eauto|]. split; [eauto|].
      intros ->. apply cert_serial_spec in Kx. vm_compute in Kx. discriminate Kx.
    + tauto.
    + pose proof (key_not_serial w x) as Ks. tauto.
  - opened. apply Fld; [apply Sep; rsimpl; auto|exact Wc|]. match goal with |- field_fault w ?f _ => apply (ff_provider w f I1) end; unfold known_serial, right_provider; rsimpl.
    + unfold sound_fields. rsimpl. do 2 (split; [assumption|]). split; [eauto|]. do 5 (split; [assumption|]). split; [eauto|]. split; [eauto|].
      intros ->. apply key_id_spec in Kx. vm_compute in Kx. intuition discriminate.
    + tauto.
    + pose proof (key_not_serial w x) as Ks. tauto.
  - opened. apply pf_rest; auto.
    + apply Sep; rsimpl; auto. intros X. apply Nc in X. discriminate X.
    + apply rf_no_counter. intros (c & Ic & Ec). exact (Ec (Nc c Ic)).
  - opened. apply Fld; [apply Sep; rsimpl; auto|exists c; auto|].
    assert ((exists b, b64decode x = Ok b) \/ ~ exists b, b64decode x = Ok b) as [Db|Db] by (destruct (b64decode x) as [b|b]; [left; eauto|right; intros (y & X); discriminate X]).
    + match goal with |- field_fault w ?f _ => apply (ff_counter w f I1) end; [|exact Pr|exact Nt].
      unfold sound_fields. rsimpl. do 2 (split; [assumption|]). split; [eauto|]. do 5 (split; [assumption|]). split; [exact Db|]. split; [eauto|].
      intros X. rewrite X in Pr. clear -Pr. destruct Pr as [[_ K]|[_ K]]; [apply key_id_spec in K|apply cert_serial_spec in K]; vm_compute in K; intuition discriminate.
    + match goal with |- field_fault w ?f _ => apply (ff_unsound w f I1) end. intros X. apply Db. apply X.
  - opened. destruct (b64decode x) as [b|b] eqn:Db.
    + apply pf_rest; auto.
      match goal with |- rest_fault w t ?f _ _ => assert (wf_fields w f) as Wx by (unfold wf_fields in *; rsimpl; repeat (split; [tauto|]); split; [eauto|tauto]); apply (rf_chain w t f _ b Wc Wx Sd Db) end. exact (Nb b eq_refl).
    + apply Fld; [apply Sep; rsimpl; auto|exact Wc|]. match goal with |- field_fault w ?f _ => apply (ff_unsound w f I1) end. intros X.
      assert (exists y, b64decode x = Ok y) as (y & Y) by apply X. congruence.
  - opened. now apply pf_segment.
  - opened. apply pf_rest; auto. apply rf_signature; [exact Wc|exact Wf|]. intros (b & X). exact (Nb b X).
Qed.
