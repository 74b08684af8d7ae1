(** Printing receipts and parsing them again (C01-C04), exceptions of the
    parsers (C05). *)
From Coq Require Import Lia ZifyClasses ZifyN ZifyNat ZifyBool.
From Verif Require Import PyBase World Regex Codec PyFloat PyTime Algo Receipt ListFacts RegexFacts
  CodecFacts CodecFacts2 SpecReceipt FieldFacts ReceiptFacts.
Open Scope N_scope.
Open Scope py_scope.
Ltac Zify.zify_post_hook ::= Z.div_mod_to_equations.

(** ** Canonical segments *)

Lemma is_url_char_spec c : is_b64url_char c = true <-> is_url_char c.
Proof. unfold is_b64url_char, is_url_char, is_az, is_AZ, is_09, c_dash, c_us. lia. Qed.

Lemma to_from_urlsafe c : is_url_char c -> to_urlsafe (from_urlsafe c) = c.
Proof.
  unfold is_url_char, to_urlsafe, from_urlsafe, c_dash, c_us, c_plus, c_slash. intros H.
  destruct (c =? 45) eqn:E1; [apply N.eqb_eq in E1; subst; reflexivity|].
  destruct (c =? 95) eqn:E2; [apply N.eqb_eq in E2; subst; reflexivity|].
  replace (c =? 43) with false by lia. now replace (c =? 47) with false by lia.
Qed.

Lemma last_map {A B} (f : A -> B) l x : l <> [] -> last (map f l) (f x) = f (last l x).
Proof.
  induction l as [|a l IH]; [congruence|]. intros _. destruct l as [|b l]; [reflexivity|].
  change (last (map f (b :: l)) (f x) = f (last (b :: l) x)). apply IH. discriminate.
Qed.

Lemma last_val_seg s : s <> [] -> last_val (map from_urlsafe s) = seg_last s.
Proof.
  intros H. unfold last_val, seg_last. change 0 with (from_urlsafe 0) at 1. now rewrite last_map.
Qed.

Lemma is_url_no_eq s : Forall is_url_char s -> ~ In c_eq s.
Proof.
  intros F H. rewrite Forall_forall in F. apply F in H. unfold is_url_char, c_eq, c_dash, c_us in H. lia.
Qed.

Lemma canon_seg_spec s : canon_seg s <-> exists b, is_bytes b /\ s = b64url_nopad b.
Proof.
  split.
  - intros (F & L).
    assert (exists k, canon64 (map from_urlsafe s ++ repeat c_eq k)) as [k C].
    { assert (forallb is_b64_char (map from_urlsafe s) = true) as FB.
      { apply forallb_forall. intros x Hx. apply in_map_iff in Hx as (y & <- & Hy).
        rewrite Forall_forall in F. apply from_urlsafe_char, is_url_char_spec, F, Hy. }
      destruct L as [L|[(L & V)|(L & V)]].
      - exists 0%nat, (map from_urlsafe s), 0%nat. rewrite map_length. repeat split; [assumption|lia|now left].
      - exists 2%nat, (map from_urlsafe s), 2%nat. rewrite map_length, last_val_seg by (intros ->; discriminate).
        repeat split; [assumption|lia|]. right; right. now split.
      - exists 1%nat, (map from_urlsafe s), 1%nat. rewrite map_length, last_val_seg by (intros ->; discriminate).
        repeat split; [assumption|lia|]. right; left. now split. }
    apply canon64_encoded in C as (b & Hb & E). exists b. split; [assumption|].
    unfold b64url_nopad, urlsafe_b64encode. rewrite <- E, map_app, remove_char_app, map_map.
    rewrite (map_ext_in (fun x => to_urlsafe (from_urlsafe x)) (fun x => x)).
    2: { intros x Hx. rewrite Forall_forall in F. apply to_from_urlsafe, F, Hx. }
    rewrite map_id, map_repeat. change (to_urlsafe c_eq) with c_eq.
    rewrite remove_char_notin by (now apply is_url_no_eq).
    assert (remove_char c_eq (repeat c_eq k) = []) as ->; [|now rewrite app_nil_r].
    clear. induction k as [|k IH]; [reflexivity|]. exact IH.
  - intros (b & Hb & ->). destruct (b64encode_canon b Hb) as (d & k & E & F & L & V).
    assert (b64url_nopad b = map to_urlsafe d) as ->.
    { unfold b64url_nopad, urlsafe_b64encode. rewrite E, map_app, map_repeat, remove_char_app.
      change (to_urlsafe c_eq) with c_eq.
      assert (remove_char c_eq (repeat c_eq k) = []) as ->.
      { clear. induction k as [|k IH]; [reflexivity|]. exact IH. }
      rewrite app_nil_r. apply remove_char_notin. intros H. apply in_map_iff in H as (x & Hx & Hin).
      rewrite forallb_forall in F. apply F, to_urlsafe_char in Hin. rewrite Hx in Hin. discriminate. }
    rewrite forallb_forall in F. split.
    { apply Forall_forall. intros x Hx. apply in_map_iff in Hx as (y & <- & Hy).
      apply is_url_char_spec, to_urlsafe_char, F, Hy. }
    assert (d <> [] -> seg_last (map to_urlsafe d) = last_val d) as SL.
    { intros N. rewrite <- last_val_seg.
      - f_equal. rewrite map_map. rewrite (map_ext_in (fun x => from_urlsafe (to_urlsafe x)) (fun x => x)); [apply map_id|].
        intros x Hx. apply from_to_urlsafe. left. now apply F.
      - destruct d; [congruence|discriminate]. }
    rewrite map_length. destruct V as [->|[(-> & V)|(-> & V)]].
    + left. lia.
    + right; right. rewrite SL by (intros ->; cbn in L; lia). split; [lia|assumption].
    + right; left. rewrite SL by (intros ->; cbn in L; lia). split; [lia|assumption].
Qed.

Lemma seg_decodes_fun s b b' : seg_decodes s b -> seg_decodes s b' -> b = b'.
Proof. intros [_ H] [_ H']. rewrite H in H'. now apply Ok_inj in H'. Qed.

Lemma seg_decodes_bytes s b : seg_decodes s b -> is_bytes b.
Proof. intros [_ H]. now apply urlsafe_b64decode_bytes in H. Qed.

Lemma seg_canon s b : seg_decodes s b -> (s = b64url_nopad b <-> canon_seg s).
Proof.
  intros H. rewrite canon_seg_spec. split.
  - intros E. exists b. split; [now apply seg_decodes_bytes in H|assumption].
  - intros (b' & Hb' & ->). apply seg_nopad in Hb'. now rewrite (seg_decodes_fun _ _ _ H Hb').
Qed.

(** ** Printing *)

Lemma mapM_utf8 l : (forall s, In s l -> encodable s) -> exists bs, mapM utf8_encode l = Ok bs
  /\ (l <> [] -> utf8_encode (join [c_us] l) = Ok (join [c_us] bs)) /\ List.length bs = List.length l.
Proof.
  induction l as [|s l IH]; intros H.
  - exists []. now repeat split.
  - destruct (H s (or_introl eq_refl)) as [b Hb].
    destruct IH as (bs & Hbs & J & L). { intros x Hx. apply H. now right. }
    exists (b :: bs). cbn [mapM]. rewrite Hb. cbn [bind]. rewrite Hbs. cbn [bind].
    split; [reflexivity|]. split; [|cbn; now rewrite L]. intros _.
    destruct l as [|t l].
    + destruct bs; [|discriminate]. exact Hb.
    + destruct bs as [|c bs]; [discriminate|].
      change (join [c_us] (s :: t :: l)) with (s ++ [c_us] ++ join [c_us] (t :: l)).
      change (join [c_us] (b :: c :: bs)) with (b ++ [c_us] ++ join [c_us] (c :: bs)).
      apply utf8_encode_app; [assumption|]. apply utf8_encode_app; [reflexivity|]. apply J. discriminate.
Qed.

Lemma encodable_join sep l : encodable (join sep l) -> forall s, In s l -> encodable s.
Proof.
  induction l as [|t l IH]; intros H s Hs; [destruct Hs|].
  destruct l as [|u l].
  - destruct Hs as [<-|[]]. exact H.
  - change (join sep (t :: u :: l)) with (t ++ sep ++ join sep (u :: l)) in H.
    apply encodable_app in H as [H1 H2]. apply encodable_app in H2 as [_ H2].
    destruct Hs as [<-|Hs]; [assumption|]. now apply IH.
Qed.

Lemma payload_segments_join r :
  join [c_us] (payload_segments r (lit "R1")) = payload_text (r_fields r).
Proof. reflexivity. Qed.

Lemma toPayloadString_spec r :
  encodable (payload_text (r_fields r)) ->
  toPayloadString r (lit "R1") = Ok (payload_text (r_fields r)).
Proof.
  intros E. unfold toPayloadString. rewrite <- payload_segments_join in *.
  destruct (mapM_utf8 (payload_segments r (lit "R1"))) as (bs & H & J & _).
  { intros s Hs. now apply (encodable_join [c_us] (payload_segments r (lit "R1"))). }
  rewrite H. cbn [bind]. apply utf8_decode_encode. apply J. discriminate.
Qed.

Lemma header_bytes : utf8_encode es256_header = Ok es256_header.
Proof. reflexivity. Qed.

Lemma header_is_bytes : is_bytes es256_header.
Proof. apply (utf8_encode_bytes es256_header). reflexivity. Qed.

Lemma toJWSString_spec w f sg r pb :
  is_receipt w f (Some (es256_header, sg)) r -> utf8_encode (payload_text f) = Ok pb ->
  toJWSString r (lit "R1") =
    Ok (b64url_nopad es256_header ++ [c_dot] ++ b64url_nopad pb ++ [c_dot] ++ sg).
Proof.
  intros (F & S & _) E. unfold toJWSString. rewrite S, toPayloadString_spec by (rewrite F; now exists pb).
  cbn [bind]. rewrite F, E. cbn [bind]. rewrite header_bytes. reflexivity.
Qed.

Lemma dot_unique (a b c a' b' c' : str) :
  ~ In c_dot a -> ~ In c_dot b -> ~ In c_dot c ->
  a ++ [c_dot] ++ b ++ [c_dot] ++ c = a' ++ [c_dot] ++ b' ++ [c_dot] ++ c' ->
  a = a' /\ b = b' /\ c = c'.
Proof.
  intros Na Nb Nc E. cbn [app] in E.
  assert (split_char c_dot (a ++ c_dot :: b ++ c_dot :: c) = [a; b; c]) as S.
  { rewrite split_char_app, split_char_app, split_char_nosep by assumption. reflexivity. }
  assert (List.length (split_char c_dot (a' ++ c_dot :: b' ++ c_dot :: c')) = 3%nat) as L by (now rewrite <- E, S).
  assert (forall (x t : str), List.length (split_char c_dot (x ++ c_dot :: t)) =
    (List.length (split_char c_dot x) + List.length (split_char c_dot t))%nat) as SP.
  { induction x as [|y x IH]; intros t.
    - reflexivity.
    - cbn [app split_char]. destruct (y =? c_dot).
      + cbn [List.length]. now rewrite IH.
      + specialize (IH t). destruct (split_char c_dot (x ++ c_dot :: t)) eqn:E1; [now apply split_char_nonnil in E1|].
        destruct (split_char c_dot x) eqn:E2; [now apply split_char_nonnil in E2|]. exact IH. }
  assert (forall x : str, List.length (split_char c_dot x) = 1%nat -> ~ In c_dot x) as S1.
  { intros x Lx Hin. apply in_split in Hin as (u & v & ->). rewrite SP in Lx.
    pose proof (split_char_nonnil c_dot u). pose proof (split_char_nonnil c_dot v).
    destruct (split_char c_dot u), (split_char c_dot v); cbn in Lx; try congruence; lia. }
  rewrite SP, SP in L.
  pose proof (split_char_nonnil c_dot a') as A. pose proof (split_char_nonnil c_dot b') as B.
  pose proof (split_char_nonnil c_dot c') as C.
  assert (~ In c_dot a' /\ ~ In c_dot b' /\ ~ In c_dot c') as (Na' & Nb' & Nc').
  { repeat split; apply S1; destruct (split_char c_dot a'), (split_char c_dot b'), (split_char c_dot c');
      cbn in *; congruence || lia. }
  rewrite E in S. rewrite split_char_app, split_char_app, split_char_nosep in S by assumption.
  now inversion S.
Qed.

(** C01 *)
Theorem jws_roundtrip w s r alg :
  fromJWSString w s = Ok (r, alg) ->
  exists s', toJWSString r alg = Ok s' /\ fromJWSString w s' = Ok (r, alg)
    /\ (forall h p g, s = h ++ [c_dot] ++ p ++ [c_dot] ++ g ->
          (s' = s <-> canon_seg h /\ canon_seg p)).
Proof.
  intros H. apply fromJWSString_spec in H as (-> & f & sg & J & I).
  destruct J as (h & p & hb & pb & gb & -> & Hh & Hhb & Hp & Hpb & G & W).
  rewrite header_bytes in Hhb. apply Ok_inj in Hhb. subst hb.
  eexists. split; [apply (toJWSString_spec _ _ _ _ _ I Hpb)|]. split.
  - apply fromJWSString_spec. split; [reflexivity|]. exists f, sg. split; [|assumption].
    exists (b64url_nopad es256_header), (b64url_nopad pb), es256_header, pb, gb.
    split; [reflexivity|]. split; [apply seg_nopad, header_is_bytes|]. split; [apply header_bytes|].
    split; [apply seg_nopad; now apply utf8_encode_bytes in Hpb|]. split; [assumption|]. split; assumption.
  - intros h' p' g' E.
    apply dot_unique in E as (<- & <- & <-);
      [|eapply seg_no_dot; apply Hh|eapply seg_no_dot; apply Hp|eapply seg_no_dot; apply G].
    rewrite <- (seg_canon _ _ Hh), <- (seg_canon _ _ Hp). split.
    + intros E. symmetry in E. apply dot_unique in E as (-> & -> & _); [now split| | |];
        (eapply seg_no_dot; first [apply Hh|apply Hp|apply G]).
    + now intros [-> ->].
Qed.

(** C02 *)

Definition sig_value (r : receipt) (b : bytes) : Prop :=
  exists sg, r_sig r = Some (es256_header, sg) /\ seg_decodes sg b.

Lemma toBasicCode_spec w f sg r b :
  is_receipt w f (Some (es256_header, sg)) r -> encodable (payload_text f) -> seg_decodes sg b ->
  toBasicCode r (lit "R1") = Ok (payload_text f ++ [c_us] ++ b64encode b).
Proof.
  intros (F & S & _) E [_ G]. unfold toBasicCode. rewrite S, toPayloadString_spec by now rewrite F.
  cbn [bind]. apply b64url_decode_str_iff in G. rewrite G. cbn [bind]. now rewrite F.
Qed.

(** The receipt with its signature in canonical form. *)
Definition canonical_sig (r : receipt) (b : bytes) : receipt := with_sig r (es256_header, b64url_nopad b).

Lemma qr_text_encode w f b g :
  wf_printed w f -> b64decode g = Ok b -> qr_text w (payload_text f ++ [c_us] ++ g) f b.
Proof. intros W H. exists g. auto. Qed.

Lemma jws_text_encodable w s f sg : jws_text w s f sg -> encodable (payload_text f).
Proof. intros (h & p & hb & pb & gb & _ & _ & _ & _ & H & _). now exists pb. Qed.

Theorem jws_to_qr w s r alg :
  fromJWSString w s = Ok (r, alg) ->
  exists q b, sig_value r b /\ toBasicCode r alg = Ok q /\ fromBasicCode w q = Ok (canonical_sig r b, alg).
Proof.
  intros H. apply fromJWSString_spec in H as (-> & f & sg & J & I).
  pose proof (jws_text_encodable _ _ _ _ J) as En.
  destruct J as (h & p & hb & pb & gb & -> & _ & _ & _ & _ & G & W).
  exists (payload_text f ++ [c_us] ++ b64encode gb), gb. split; [exists sg; split; [apply I|assumption]|].
  split; [now apply (toBasicCode_spec w f sg)|].
  apply fromBasicCode_spec. split; [reflexivity|]. exists f, gb. split; [|unfold canonical_sig; eapply is_receipt_sig; exact I].
  apply qr_text_encode; [assumption|]. apply b64decode_encode. now apply seg_decodes_bytes in G.
Qed.

Lemma canonical_sig_id w f sg r b :
  is_receipt w f (Some (es256_header, sg)) r -> seg_decodes sg b -> (canonical_sig r b = r <-> canon_seg sg).
Proof.
  intros I G. rewrite <- (seg_canon _ _ G). split.
  - intros E. assert (r_sig (canonical_sig r b) = r_sig r) as E' by (now rewrite E).
    destruct I as (_ & S & _). rewrite S in E'. cbn in E'. now injection E' as ->.
  - intros ->. apply is_receipt_nosig in I as [_ E]. rewrite E. reflexivity.
Qed.

(** JWS -> QR -> JWS gives the string back exactly if it was canonical. *)
Theorem jws_qr_jws w s r alg :
  fromJWSString w s = Ok (r, alg) ->
  exists q r' s', toBasicCode r alg = Ok q /\ fromBasicCode w q = Ok (r', alg) /\ toJWSString r' alg = Ok s'
    /\ (forall h p g, s = h ++ [c_dot] ++ p ++ [c_dot] ++ g ->
          (s' = s <-> canon_seg h /\ canon_seg p /\ canon_seg g)).
Proof.
  intros H. pose proof H as H0. apply jws_to_qr in H as (q & b & (sg & Sg & G) & Hq & Hr).
  apply fromJWSString_spec in H0 as (-> & f & sg' & J & I).
  assert (sg' = sg) as ->. { destruct I as (_ & S & _). rewrite S in Sg. now injection Sg as ->. }
  destruct J as (h & p & hb & pb & gb & -> & Hh & Hhb & Hp & Hpb & _ & W).
  rewrite header_bytes in Hhb. apply Ok_inj in Hhb. subst hb.
  exists q, (canonical_sig r b). eexists. split; [assumption|]. split; [assumption|].
  split. { eapply toJWSString_spec; [eapply is_receipt_sig; exact I|eassumption]. }
  intros h' p' g' E.
  apply dot_unique in E as (<- & <- & <-);
    [|eapply seg_no_dot; apply Hh|eapply seg_no_dot; apply Hp|eapply seg_no_dot; apply G].
  rewrite <- (seg_canon _ _ Hh), <- (seg_canon _ _ Hp), <- (seg_canon _ _ G). split.
  - intros E. symmetry in E. apply dot_unique in E as (-> & -> & ->); [now repeat split| | |];
      (eapply seg_no_dot; first [apply Hh|apply Hp|apply G]).
  - intros (-> & -> & ->). reflexivity.
Qed.

Theorem qr_roundtrip w s r alg :
  encodable s -> fromBasicCode w s = Ok (r, alg) ->
  exists q, toBasicCode r alg = Ok q /\ fromBasicCode w q = Ok (r, alg)
    /\ (forall p g, s = p ++ [c_us] ++ g -> ~ In c_us g -> (q = s <-> canon64 g)).
Proof.
  intros En H. apply fromBasicCode_spec in H as (-> & f & b & (g & -> & Hg & W) & I).
  apply encodable_app in En as [En _]. pose proof (b64decode_bytes _ _ Hg) as Hb.
  exists (payload_text f ++ [c_us] ++ b64encode b). split.
  { apply (toBasicCode_spec w f (b64url_nopad b)); [assumption|assumption|now apply seg_nopad]. }
  split.
  - apply fromBasicCode_spec. split; [reflexivity|]. exists f, b. split; [|assumption].
    apply qr_text_encode; [assumption|now apply b64decode_encode].
  - intros p g' E N. assert (g = g') as <-.
    { assert (~ In c_us g) as N' by (apply (b64_not _ _ _ Hg); now left).
      assert (forall (x y : str) u v, ~ In c_us u -> ~ In c_us v -> x ++ [c_us] ++ u = y ++ [c_us] ++ v -> u = v) as U.
      { clear. intros x y u v Nu Nv E. apply (f_equal (fun l => rev l)) in E.
        cbn [app] in E. rewrite !rev_app_distr in E. cbn [rev] in E. rewrite <- !app_assoc in E. cbn [app] in E.
        assert (rev u = rev v) as R; [|now rewrite <- (rev_involutive u), R, rev_involutive].
        rewrite in_rev in Nu, Nv. revert E Nu Nv. generalize (rev u) (rev v) (rev x) (rev y). clear.
        induction l as [|a l IH]; intros l0 l1 l2 E Nu Nv; destruct l0 as [|b l0]; cbn in *.
        - reflexivity.
        - injection E as E _. exfalso. apply Nv. now left.
        - injection E as E _. exfalso. apply Nu. now left.
        - injection E as -> E. f_equal. eapply IH; eauto. }
      now apply U in E. }
    rewrite <- (b64_reencode _ _ Hg). split.
    + intros E'. now apply app_inv_head, app_inv_head in E'.
    + now intros ->.
Qed.
