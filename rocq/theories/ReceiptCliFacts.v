(** Facts about receipt.py and verify_receipt.py. *)
From Coq Require Import Sorted Lia ZifyClasses ZifyN ZifyNat ZifyBool.
From Verif Require Import PyBase World Regex Codec Algo Receipt DepBase Json KeyStore VerifyReceipt DepExport Url StateCli ReceiptCli ListFacts CodecFacts CodecFacts2 SpecReceipt FieldFacts
  ReceiptFacts RoundTrip RoundTrip2 VerifyFacts SpecDep SpecUrl UrlFacts FormFacts SpecConvert ConvertFacts SpecReceiptCli.
Open Scope N_scope.
Open Scope py_scope.

(** ** Lines *)

Definition visible (w : world) (c : N) : Prop := c <> c_nl /\ c <> 13 /\ char_isspace w c = false.

Lemma ascii_visible w c : 32 < c < 127 -> visible w c.
Proof.
  intros H. unfold visible, c_nl, char_isspace. replace (c <? 128) with true by lia. lia.
Qed.

Lemma visible_line w s : Forall (visible w) s -> single_line s /\ no_edge_space w s.
Proof.
  intros F. rewrite Forall_forall in F. split; [split; intros H; apply F in H; destruct H as (A & B & _); congruence|].
  split; intros c t ->; apply F; [now left|]. apply in_or_app. right. now left.
Qed.

Lemma framed_line w a e : Forall single_line a -> Forall (visible w) e ->
  single_line (c_us :: join [c_us] (a ++ [e])) /\ no_edge_space w (c_us :: join [c_us] (a ++ [e])).
Proof.
  intros A E. pose proof E as E'. apply visible_line in E' as [E1 E2].
  assert (forall c, c = c_nl \/ c = 13 -> ~ In c (c_us :: join [c_us] (a ++ [e]))) as K.
  { intros c Hc [<-|H]; [destruct Hc; discriminate|]. apply ConvertFacts.join_In in H as [[<-|[]]|(s & Hs & H)]; [destruct Hc; discriminate|].
    apply in_app_or in Hs as [Hs|[<-|[]]].
    - rewrite Forall_forall in A. destruct (A s Hs) as [A1 A2]. destruct Hc as [->| ->]; contradiction.
    - destruct E1 as [A1 A2]. destruct Hc as [->| ->]; contradiction. }
  split; [split; apply K; auto|]. split.
  - intros c t H. injection H as <- _. reflexivity.
  - intros c t H. destruct e as [|x y] using rev_ind.
    + assert (exists b, c_us :: join [c_us] (a ++ [[]]) = b ++ [c_us]) as (b & Hb).
      { destruct a as [|s a]; [now exists []|]. rewrite join_last by discriminate. exists (c_us :: join [c_us] (s :: a)). reflexivity. }
      rewrite Hb in H. apply app_inj_tail in H as [_ <-]. reflexivity.
    + assert (exists b, c_us :: join [c_us] (a ++ [y ++ [x]]) = b ++ [x]) as (b & Hb).
      { destruct a as [|s a]; [exists (c_us :: y); reflexivity|]. rewrite join_last by discriminate. exists (c_us :: join [c_us] (s :: a) ++ [c_us] ++ y).
        cbn [app]. rewrite <- !app_assoc. reflexivity. }
      rewrite Hb in H. apply app_inj_tail in H as [_ <-]. apply Forall_app in E as [_ E]. apply Forall_inv in E. apply E.
Qed.

Lemma b64_visible w b : is_bytes b -> Forall (visible w) (b64encode b).
Proof.
  intros H. destruct (b64encode_canon b H) as (d & k & -> & F & _). apply Forall_app. split.
  - apply Forall_forall. intros c Hc. rewrite forallb_forall in F. specialize (F c Hc). apply ascii_visible.
    unfold is_b64_char, is_az, is_AZ, is_09, c_plus, c_slash in F. lia.
  - apply Forall_forall. intros c Hc. apply repeat_spec in Hc. subst c. now apply ascii_visible.
Qed.
Lemma b32_visible w b : is_bytes b -> Forall (visible w) (b32encode b).
Proof.
  intros H. destruct (b32encode_shape b H) as (d & k & -> & F & _). apply Forall_app. split.
  - apply Forall_forall. intros c Hc. rewrite forallb_forall in F. specialize (F c Hc). apply ascii_visible.
    unfold is_b32_char, is_AZ in F. lia.
  - apply Forall_forall. intros c Hc. apply repeat_spec in Hc. subst c. now apply ascii_visible.
Qed.
Lemma nopad_visible w b : Forall (visible w) (b64url_nopad b).
Proof.
  apply Forall_forall. intros c Hc. pose proof (b64url_nopad_chars b) as F. rewrite forallb_forall in F. specialize (F c Hc). apply ascii_visible.
  unfold is_b64url_char, is_az, is_AZ, is_09, c_dash, c_us in F. lia.
Qed.
Lemma canon_visible w s : canon_seg s -> Forall (visible w) s.
Proof.
  intros [F _]. eapply Forall_impl; [|exact F]. intros c H. apply ascii_visible. unfold is_url_char, c_dash, c_us in H. lia.
Qed.

Lemma text_lines ls : Forall single_line ls -> file_lines (universal_newlines (lines_text ls)) = map (fun l => l ++ [c_nl]) ls.
Proof.
  intros F. rewrite newlines_id.
  - apply lines_table. eapply Forall_impl; [|exact F]. intros l H. apply H.
  - unfold lines_text. intros X. apply in_concat in X as (l & Hl & X). apply in_map_iff in Hl as (l0 & <- & Hl). apply in_app_or in X as [X|[X|[]]]; [|discriminate].
    rewrite Forall_forall in F. destruct (F l0 Hl) as [_ H0]. contradiction.
Qed.

(** ** Single receipts *)

Lemma shown_exists w t r g : one_line w t r -> exists s, shown w g r s.
Proof.
  intros (_ & R & _). assert (fromJWSString w t = Ok (r, lit "R1")) as J by now apply parse_reads.
  destruct g; cbn [shown].
  - destruct (jws_roundtrip w t r _ J) as (s & H & _). eauto.
  - destruct (jws_to_qr w t r _ J) as (q & b & _ & H & _). eauto.
  - destruct (ocr_py3 w t r _ J) as (o & H & _). eauto.
  - exact (hash_exists w t r _ J).
  - destruct (jws_to_qr w t r _ J) as (q & b & _ & H & _). unfold toCSV. rewrite H. cbn [bind]. eauto.
Qed.

Lemma jws_shown w t r s : one_line w t r -> toJWSString r (lit "R1") = Ok s -> s = t.
Proof.
  intros ((h & p & g & E & Ch & Cp & _) & R & _) H. assert (fromJWSString w t = Ok (r, lit "R1")) as J by now apply parse_reads.
  destruct (jws_roundtrip w t r _ J) as (s' & H' & _ & U). rewrite H in H'. apply Ok_inj in H'. subst s'. now apply (U h p g E).
Qed.

Lemma qr_shape f sb : payload_text f ++ [c_us] ++ b64encode sb = c_us :: join [c_us] (csv_fields f ++ [b64encode sb]).
Proof. unfold payload_text, csv_fields. cbn [join app]. rewrite <- ?app_assoc. cbn [app]. repeat (rewrite <- ?app_assoc; cbn [app]). reflexivity. Qed.

Lemma canonical_receipt w t r : one_line w t r ->
  exists sg sb, wf_printed w (r_fields r) /\ is_receipt w (r_fields r) (Some (es256_header, sg)) r /\ encodable (payload_text (r_fields r))
    /\ seg_decodes sg sb /\ canon_seg sg /\ canonical_sig r sb = r.
Proof.
  intros ((h & p & g & E & Ch & Cp & Cg) & R & _). assert (fromJWSString w t = Ok (r, lit "R1")) as J by now apply parse_reads.
  apply fromJWSString_spec in J as (_ & f & sg & Jt & I). assert (r_fields r = f) as -> by apply I.
  pose proof (jws_text_encodable _ _ _ _ Jt) as En. destruct Jt as (h' & p' & hb & pb & gb & Ej & Hh & _ & Hp & _ & Hg & W).
  rewrite E in Ej. symmetry in Ej. apply dot_unique in Ej as (_ & _ & ->); [|eapply seg_no_dot; first [apply Hh|apply Hp|apply Hg]..].
  exists g, gb. repeat (split; [assumption|]). now apply (canonical_sig_id w f g r gb I Hg).
Qed.

Lemma ocr_line w t r s : one_line w t r -> toOCRCode r (lit "R1") = Ok s -> single_line s /\ no_edge_space w s.
Proof.
  intros O G. pose proof O as (_ & _ & Nl). destruct (canonical_receipt w t r O) as (sg & sb & W & I & En & Sg & Cs & Cn). pose proof (seg_decodes_bytes _ _ Sg) as Sb.
  assert (exists tb cb, b64decode (f_tc (r_fields r)) = Ok tb /\ b64decode (f_chain (r_fields r)) = Ok cb) as (tb & cb & T & C).
  { destruct W as ((_ & _ & _ & _ & _ & _ & _ & _ & _ & _ & _ & (tb & T & _) & (cb & C) & _) & _). eauto. }
  rewrite (toOCRCode_spec w _ sg r tb cb sb I En T C Sg) in G. apply Ok_inj in G.
  assert (join [c_us] (ocr_segs (r_fields r) tb cb sb) = c_us :: join [c_us]
    (([lit "R1-" ++ r_zda r; r_registerId r; r_receiptId r; r_dateTimeStr r; r_sumAStr r; r_sumBStr r; r_sumCStr r; r_sumDStr r; r_sumEStr r;
       b32encode tb; r_certSerial r; b32encode cb] : list str) ++ [b32encode sb])) as Eo by reflexivity.
  rewrite Eo in G. subst s.
  match goal with |- context [c_us :: join [c_us] (?a ++ [_])] => destruct (framed_line w a (b32encode sb)) as [V1 V2]; [|now apply b32_visible|auto] end.
  pose proof (visible_line w _ (b32_visible w tb (b64decode_bytes _ _ T))) as [T1 _]. pose proof (visible_line w _ (b32_visible w cb (b64decode_bytes _ _ C))) as [C1 _].
  unfold csv_fields, r_fields in Nl. cbn [f_zda f_register f_receipt f_time f_a f_b f_c f_d f_e f_tc f_serial f_chain] in Nl.
  repeat (apply Forall_cons_iff in Nl as [? Nl]). repeat (apply Forall_cons; [assumption|]). apply Forall_nil.
Qed.

Lemma given_reads w py fetch f t r s : one_line w t r -> given w py fetch f r s ->
  single_line s /\ no_edge_space w s /\ read_receipt w py fetch f s = Ok (r, lit "R1").
Proof.
  intros O G. pose proof O as (_ & R & Nl). assert (fromJWSString w t = Ok (r, lit "R1")) as J by now apply parse_reads.
  destruct (canonical_receipt w t r O) as (sg & sb & W & I & En & Sg & Cs & Cn). pose proof (seg_decodes_bytes _ _ Sg) as Sb.
  assert (forall q, toBasicCode r (lit "R1") = Ok q -> fromBasicCode w q = Ok (r, lit "R1")) as Q.
  { intros q H. destruct (jws_to_qr w t r _ J) as (q' & b & (sg' & S1 & S2) & H' & B). rewrite H in H'. apply Ok_inj in H'. subst q'.
    assert (sg' = sg) as -> by (destruct I as (_ & S & _); rewrite S in S1; now injection S1).
    destruct Sg as [_ Sg], S2 as [_ S2]. rewrite Sg in S2. apply Ok_inj in S2. subst b. now rewrite Cn in B. }
  destruct f; cbn [given read_receipt] in *.
  - rewrite (jws_shown w t r s O G). destruct O as ((h & p & g & -> & Ch & Cp & Cg) & _).
    assert (Forall (visible w) (h ++ [c_dot] ++ p ++ [c_dot] ++ g)) as V.
    { assert (visible w c_dot) by now apply ascii_visible. apply Forall_app. split; [now apply canon_visible|]. apply Forall_app. split; [now constructor|].
      apply Forall_app. split; [now apply canon_visible|]. apply Forall_app. split; [now constructor|now apply canon_visible]. }
    apply visible_line in V as [V1 V2]. auto.
  - pose proof (Q s G) as B. rewrite (toBasicCode_spec w _ sg r sb I En Sg) in G. apply Ok_inj in G. rewrite qr_shape in G. subst s.
    destruct (framed_line w (csv_fields (r_fields r)) (b64encode sb) Nl (b64_visible w sb Sb)) as [V1 V2]. auto.
  - destruct G as (G & -> & Ne & CT & CC). destruct (ocr_roundtrip_py2 w t r _ J Ne) as (o & r' & Ho & B & S). rewrite G in Ho. apply Ok_inj in Ho. subst o.
    apply (same_canonical r r' sg) in S; [|now apply I|assumption..]. subst r'.
    destruct (ocr_line w t r s O G) as [V1 V2]. auto.
  - destruct G as (V1 & V2 & code & G & Fe). rewrite Fe. cbn [bind]. auto.
  - destruct G as [G S]. assert (Forall (fun s => ~ In c_nl s /\ ~ In 13 s) (csv_fields (r_fields r))) as Nl' by exact Nl.
    destruct (line_clean w t r s R S Nl' G) as (V1 & V2 & V3). split; [split; assumption|]. split; [exact V3|].
    destruct (csv_roundtrip w t r _ J S) as (csv & b & (sg' & S1 & S2) & H' & B). rewrite G in H'. apply Ok_inj in H'. subst csv.
    assert (sg' = sg) as -> by (destruct I as (_ & S' & _); rewrite S' in S1; now injection S1).
    destruct Sg as [_ Sg], S2 as [_ S2]. rewrite Sg in S2. apply Ok_inj in S2. subst b. now rewrite Cn in B.
Qed.

(** ** receipt.py *)

Theorem convert_given w py fetch f g ts rs ins : Forall2 (one_line w) ts rs -> Forall2 (given w py fetch f) rs ins ->
  exists outs, Forall2 (shown w g) rs outs /\ receipt_py w py fetch f g (lines_text ins) = (lines_text outs, None).
Proof.
  intros O G.
  assert (Forall single_line ins) as L.
  { revert ts O. induction G as [|r s rs ins G1 G IH]; intros ts O; [constructor|]. inversion O as [|t ? ts' ? O1 O2]; subst.
    constructor; [apply (given_reads w py fetch f t r s O1 G1)|now apply (IH ts')]. }
  unfold receipt_py. rewrite (text_lines ins L). clear L. revert ts O. induction G as [|r s rs ins G1 G IH]; intros ts O.
  - exists []. split; [constructor|reflexivity].
  - inversion O as [|t ? ts' ? O1 O2]; subst. destruct (IH ts' O2) as (outs & So & E). destruct (shown_exists w t r g O1) as (o & Ho).
    exists (o :: outs). split; [now constructor|]. cbn [map convert_lines].
    destruct (given_reads w py fetch f t r s O1 G1) as (_ & V & Rd). unfold convert_line. rewrite (strip_nl w s V), Rd. cbn [bind fst snd].
    assert (print_receipt w g r (lit "R1") = Ok o) as -> by (destruct g; exact Ho). rewrite E. unfold lines_text. cbn [map List.concat]. now rewrite <- app_assoc.
Qed.

Lemma shown_given w py fetch f r s : f <> F_url -> (given w py fetch f r s -> shown w f r s).
Proof. destruct f; cbn [given shown]; try tauto. Qed.
Lemma shown_fun w f r s s' : shown w f r s -> shown w f r s' -> s = s'.
Proof. destruct f; cbn [shown]; intros A B; rewrite A in B; now apply Ok_inj in B. Qed.
Lemma shown_list w f rs ss ss' : Forall2 (shown w f) rs ss -> Forall2 (shown w f) rs ss' -> ss = ss'.
Proof.
  intros A. revert ss'. induction A as [|r s rs ss A1 A IH]; intros ss' B; inversion B as [|? s' ? ? B1 B2]; subst; [reflexivity|].
  f_equal; [exact (shown_fun w f r s s' A1 B1)|now apply IH].
Qed.

(** There and back *)
Theorem convert_there_and_back w py fetch f g ts rs ins outs : f <> F_url -> g <> F_url -> Forall2 (one_line w) ts rs ->
  Forall2 (given w py fetch f) rs ins -> Forall2 (given w py fetch g) rs outs ->
  receipt_py w py fetch f g (lines_text ins) = (lines_text outs, None) /\ receipt_py w py fetch g f (lines_text outs) = (lines_text ins, None).
Proof.
  intros Nf Ng O.
  assert (forall f g ins outs, g <> F_url -> Forall2 (given w py fetch f) rs ins -> Forall2 (given w py fetch g) rs outs ->
    receipt_py w py fetch f g (lines_text ins) = (lines_text outs, None)) as K; [|intros G H; split; now apply K].
  clear -O. intros f g ins outs Ng G H. destruct (convert_given w py fetch f g ts rs ins O G) as (outs' & S & E). rewrite E.
  assert (outs' = outs) as ->; [|reflexivity]. apply (shown_list w g rs); [exact S|].
  clear -H Ng. induction H; constructor; [now apply (shown_given w py fetch)|assumption].
Qed.

(** In general *)
Theorem convert_lines_spec w py fetch f g lines out e : convert_lines w py fetch f g lines = (out, e) ->
  exists good rest outs, lines = good ++ rest /\ out = lines_text outs
    /\ Forall2 (fun l s => convert_line w py fetch f g l = Ok s) good outs
    /\ match e with
       | None => rest = []
       | Some e => exists bad r, rest = bad :: r /\ convert_line w py fetch f g bad = Err e
       end.
Proof.
  revert out e. induction lines as [|l lines IH]; intros out e H; cbn [convert_lines] in H.
  - injection H as <- <-. exists [], [], []. repeat split. constructor.
  - destruct (convert_line w py fetch f g l) as [s|x] eqn:E.
    + destruct (convert_lines w py fetch f g lines) as [o e'] eqn:E'. injection H as <- <-.
      destruct (IH o e' eq_refl) as (good & rest & outs & -> & -> & F & X). exists (l :: good), rest, (s :: outs).
      split; [reflexivity|]. split; [unfold lines_text; cbn [map List.concat]; now rewrite <- app_assoc|]. split; [now constructor|exact X].
    + injection H as <- <-. exists [], (l :: lines), []. split; [reflexivity|]. split; [reflexivity|]. split; [constructor|]. exists l, lines. auto.
Qed.

(** ** verify_receipt.py *)

Lemma verify_lines_spec w ver lines : forall idx fails, (fails <= idx)%nat ->
  (forall l e, In l lines -> ver (strip (char_isspace w) l) = Err e -> receipt_exception e = true) ->
  exists out, verify_lines w ver idx fails lines = (out, Ok ((idx - fails + (List.length lines - List.length out))%nat, (idx + List.length lines)%nat))
    /\ (List.length out <= List.length lines)%nat
    /\ (forall i e, In (i, e) out <-> exists k l, i = (idx + k)%nat /\ nth_error lines k = Some l /\ ver (strip (char_isspace w) l) = Err e)
    /\ StronglySorted lt (map fst out).
Proof.
  induction lines as [|l lines IH]; intros idx fails L C; cbn [verify_lines].
  - exists []. cbn [List.length]. split; [f_equal; f_equal; f_equal; lia|]. split; [lia|]. split; [|constructor].
    intros i e. split; [intros []|]. intros (k & l & _ & H & _). now destruct k.
  - destruct (ver (strip (char_isspace w) l)) as [u|e0] eqn:E.
    + destruct (IH (S idx) fails) as (out & V & Le & I & So); [lia|intros l' e Hl; apply C; now right|].
      exists out. rewrite V. cbn [List.length]. split; [f_equal; f_equal; f_equal; lia|]. split; [lia|]. split; [|exact So].
      intros i e. rewrite I. split.
      * intros (k & l' & -> & H & H'). exists (S k), l'. split; [lia|]. now split.
      * intros (k & l' & -> & H & H'). destruct k as [|k]; [cbn [nth_error] in H; apply Some_inj in H; subst l'; congruence|]. exists k, l'. split; [lia|]. now split.
    + rewrite (C l e0 (or_introl eq_refl) E). destruct (IH (S idx) (S fails)) as (out & V & Le & I & So); [lia|intros l' e Hl; apply C; now right|].
      rewrite V. exists ((idx, e0) :: out). cbn [List.length map fst]. split; [f_equal; f_equal; f_equal; lia|]. split; [lia|]. split.
      * intros i e. split.
        -- intros [H|H]; [injection H as <- <-; exists 0%nat, l; split; [lia|]; now split|]. apply I in H as (k & l' & -> & H & H'). exists (S k), l'. split; [lia|]. now split.
        -- intros (k & l' & -> & H & H'). destruct k as [|k].
           ++ cbn [nth_error] in H. apply Some_inj in H. subst l'. rewrite E in H'. injection H' as ->. left. f_equal. lia.
           ++ right. apply I. exists k, l'. split; [lia|]. now split.
      * constructor; [exact So|]. apply Forall_forall. intros i Hi. apply in_map_iff in Hi as ((i' & e) & <- & Hi). apply I in Hi as (k & _ & -> & _). cbn [fst]. lia.
Qed.

(** The receipts that were read *)
Lemma printed_reads w f sg r sb : wf_printed w f -> is_receipt w f (Some (es256_header, sg)) r -> encodable (payload_text f) -> seg_decodes sg sb ->
  exists t, reads w t r.
Proof.
  intros W I (pb & Hpb) G. exists (b64url_nopad es256_header ++ [c_dot] ++ b64url_nopad pb ++ [c_dot] ++ sg).
  apply (parse_reads w _ r (lit "R1")). apply fromJWSString_spec. split; [reflexivity|]. exists f, sg. split; [|exact I].
  exists (b64url_nopad es256_header), (b64url_nopad pb), es256_header, pb, sb.
  split; [reflexivity|]. split; [apply seg_nopad, header_is_bytes|]. split; [apply header_bytes|].
  split; [apply seg_nopad; now apply utf8_encode_bytes in Hpb|]. split; [assumption|]. split; assumption.
Qed.
Lemma qr_reads w s r alg : encodable s -> fromBasicCode w s = Ok (r, alg) -> alg = lit "R1" /\ exists t, reads w t r.
Proof. intros E H. destruct (qr_receipt w s r alg E H) as (f & sg & sb & -> & W & I & En & G). split; [reflexivity|]. exact (printed_reads w f sg r sb W I En G). Qed.

Lemma read_kind w py fetch f s r alg : plain_format f -> encodable s -> read_receipt w py fetch f s = Ok (r, alg) -> alg = lit "R1" /\ exists t, reads w t r.
Proof.
  intros P E H. destruct f; cbn [read_receipt plain_format] in *; try contradiction.
  - apply parse_reads in H as [-> R]. split; [reflexivity|]. now exists s.
  - exact (qr_reads w s r alg E H).
  - unfold fromCSV in H. eapply qr_reads; [|exact H]. rewrite encodable_In in *. intros c [<-|Hc]; [now exists [c_us]|].
    apply RoundTrip2.join_In in Hc as [[<-|[]]|(x & Hx & Hc)]; [now exists [c_us]|].
    apply in_map_iff in Hx as (y & <- & Hy). apply strip_In in Hc. apply E. now apply (split_char_In c_semi s y).
Qed.

Lemma read_clean w py fetch f s e : plain_format f -> encodable s -> read_receipt w py fetch f s = Err e -> receipt_exn e.
Proof.
  intros P E. destruct f; cbn [read_receipt plain_format] in *; try contradiction.
  - now apply fromJWSString_clean.
  - now apply fromBasicCode_clean.
  - now apply fromCSV_clean.
Qed.

Lemma verify_read w py fetch v f s : f <> F_url -> verify_text w py fetch v f s =
  (do rp <- read_receipt w py fetch f s; do _ <- verify w v (fst rp) (snd rp); Ok tt).
Proof.
  intros N. destruct f; try congruence; cbn [verify_text read_receipt]; unfold verifyJWS, verifyBasicCode, verifyOCRCode, verifyCSV;
  match goal with |- context [bind ?m (fun rp => verify _ _ (fst rp) _)] => destruct m end; reflexivity.
Qed.

Lemma verify_line w py fetch ks f s : plain_format f -> encodable s ->
  (genuine w ks f s /\ verify_text w py fetch (fromKeyStore ks) f s = Ok tt)
  \/ (~ genuine w ks f s /\ exists e, verify_text w py fetch (fromKeyStore ks) f s = Err e /\ receipt_exception e = true).
Proof.
  intros P E. rewrite verify_read by (now destruct f).
  assert (forall r, parsed w f s r <-> read_receipt w py fetch f s = Ok (r, lit "R1")) as Q by (destruct f; cbn [parsed read_receipt plain_format] in *; tauto).
  destruct (read_receipt w py fetch f s) as [[r alg]|e] eqn:R; cbn [bind fst snd].
  - destruct (read_kind w py fetch f s r alg P E R) as (-> & t & Rd).
    assert (proper (fromKeyStore ks)) as Pr by (right; eauto).
    assert (forall r', parsed w f s r' -> r' = r) as U by (intros r' H; apply Q in H; injection H; congruence).
    destruct (verify_spec w _ r t Pr Rd) as [(C & V)|[(C & Un & V)|[(C & Un & (k & K & S) & V)|(C & Un & K & e & V & H)]]]; rewrite V; cbn [bind].
    + right. split; [exfalso; apply C; intros c Hc; discriminate Hc|]. eexists. split; reflexivity.
    + right. split; [intros (r' & k & Hr & Nu & _); apply U in Hr; subst r'; contradiction|]. eexists. split; [reflexivity|]. now destruct (_ && _).
    + left. split; [|reflexivity]. exists r, k. split; [now apply Q|]. auto.
    + right. split; [intros (r' & k & Hr & _ & K1 & K2); apply U in Hr; subst r'; apply K; eauto|]. exists e. split; [reflexivity|]. now destruct H as [->| ->].
  - right. split; [intros (r' & k & Hr & _); apply Q in Hr; discriminate|]. exists e. split; [reflexivity|].
    apply (read_clean w py fetch f s e P E) in R. destruct R as (x & R). decompose [or] R; subst; reflexivity.
Qed.

Lemma report_lines w py fetch f store ks i : plain_format f -> readStoreFromJson w (load store) = Ok ks -> Forall encodable (input_lines i) ->
  let lines := map (strip (char_isspace w)) (input_lines i) in
  exists failed good, verify_receipt_py w py fetch f store i = (failed, Ok (good, List.length lines))
    /\ (good + List.length failed = List.length lines)%nat
    /\ StronglySorted lt (map fst failed)
    /\ (forall k e, In (k, e) failed -> exists l, nth_error lines k = Some l /\ verify_text w py fetch (fromKeyStore ks) f l = Err e /\ ~ genuine w ks f l)
    /\ (forall k l, nth_error lines k = Some l -> ~ genuine w ks f l -> exists e, In (k, e) failed).
Proof.
  intros P S E lines. unfold verify_receipt_py. rewrite S.
  assert (forall l, In l (input_lines i) -> encodable (strip (char_isspace w) l)) as En.
  { intros l Hl. rewrite Forall_forall in E. specialize (E l Hl). rewrite encodable_In in *. intros c Hc. apply E. now apply strip_In in Hc. }
  destruct (verify_lines_spec w (verify_text w py fetch (fromKeyStore ks) f) (input_lines i) 0 0) as (out & V & Le & I & So); [lia| |].
  { intros l e Hl H. destruct (verify_line w py fetch ks f _ P (En l Hl)) as [(_ & X)|(_ & e' & X & Y)]; rewrite X in H; [discriminate|]. injection H as <-. exact Y. }
  rewrite V. exists out, (List.length (input_lines i) - List.length out)%nat. subst lines. rewrite map_length.
  split; [f_equal; f_equal; f_equal; lia|]. split; [lia|]. split; [exact So|]. split.
  - intros k e H. apply I in H as (k' & l & -> & N & X). exists (strip (char_isspace w) l). split; [rewrite nth_error_map; cbn [Nat.add]; now rewrite N|]. split; [exact X|].
    apply nth_error_In in N. destruct (verify_line w py fetch ks f _ P (En l N)) as [(_ & Y)|(Y & _)]; [congruence|exact Y].
  - intros k l N G. rewrite nth_error_map in N. destruct (nth_error (input_lines i) k) as [l'|] eqn:N'; [|discriminate]. cbn [option_map] in N. apply Some_inj in N. subst l.
    destruct (verify_line w py fetch ks f _ P (En l' (nth_error_In _ _ N'))) as [(Y & _)|(_ & e & Y & _)]; [contradiction|]. exists e. apply I. exists k, l'. auto.
Qed.

(** The lines of the input *)
Lemma lstrip_snoc sp l c : sp c = true -> lstrip sp (l ++ [c]) = match lstrip sp l with [] => [] | r => r ++ [c] end.
Proof.
  intros H. induction l as [|x l IH]; cbn [app lstrip]; [now rewrite H|]. destruct (sp x); [exact IH|reflexivity].
Qed.
Lemma strip_snoc sp l c : sp c = true -> strip sp (l ++ [c]) = strip sp l.
Proof.
  intros H. unfold strip. rewrite lstrip_snoc by exact H. destruct (lstrip sp l) as [|x r]; [reflexivity|].
  rewrite rev_app_distr. cbn [rev app lstrip]. now rewrite H.
Qed.
Lemma newlines_app l t : ~ In 13 l -> universal_newlines (l ++ t) = l ++ universal_newlines t.
Proof.
  induction l as [|c l IH]; intros H; [reflexivity|]. cbn [app universal_newlines].
  destruct (N.eqb_spec c 13); [subst; exfalso; apply H; now left|]. f_equal. apply IH. intros X. apply H. now right.
Qed.
Lemma newlines_break b t : line_break b t -> universal_newlines (b ++ t) = c_nl :: universal_newlines t.
Proof.
  intros [->|[->|[-> H]]]; [reflexivity..|]. cbn [app universal_newlines]. change (13 =? 13) with true. cbn iota.
  destruct t as [|n t]; [reflexivity|]. destruct (N.eqb_spec n c_nl); [subst; now contradiction H|reflexivity].
Qed.
Lemma lines_one l : l <> [] -> ~ In c_nl l -> file_lines l = [l].
Proof.
  induction l as [|c l IH]; intros N H; [congruence|]. cbn [file_lines]. destruct (N.eqb_spec c c_nl); [subst; exfalso; apply H; now left|].
  destruct l as [|d l]; [reflexivity|]. rewrite IH; [reflexivity|discriminate|]. intros X. apply H. now right.
Qed.
Lemma has_lines_file w t ls : has_lines t ls -> map (strip (char_isspace w)) (file_lines (universal_newlines t)) = map (strip (char_isspace w)) ls
  /\ forall l, In l (file_lines (universal_newlines t)) -> exists l', In l' ls /\ (l = l' \/ l = l' ++ [c_nl]).
Proof.
  induction 1 as [|l N S|l b t ls S B H [IH1 IH2]].
  - split; [reflexivity|]. intros l [].
  - rewrite (newlines_id l) by apply S. rewrite (lines_one l N) by apply S. split; [reflexivity|]. intros x [<-|[]]. exists l. split; [now left|now left].
  - rewrite (newlines_app l) by apply S. rewrite (newlines_break b t B). rewrite lines_cons by apply S. cbn [map]. rewrite IH1, strip_snoc by reflexivity.
    split; [reflexivity|]. intros x [<-|X]; [exists l; split; [now left|now right]|]. destruct (IH2 x X) as (l' & A & C). exists l'. split; [now right|exact C].
Qed.
Lemma given_input w i ls : given_lines i ls -> map (strip (char_isspace w)) (input_lines i) = map (strip (char_isspace w)) ls
  /\ (Forall encodable ls -> Forall encodable (input_lines i)).
Proof.
  destruct i as [s|t]; cbn [given_lines input_lines].
  - intros ->. split; [reflexivity|auto].
  - intros H. destruct (has_lines_file w t ls H) as [A B]. split; [exact A|]. intros F. apply Forall_forall. intros l Hl.
    destruct (B l Hl) as (l' & I & E). rewrite Forall_forall in F. specialize (F l' I). destruct E as [->| ->]; [exact F|].
    rewrite encodable_In in *. intros c Hc. apply in_app_or in Hc as [Hc|[<-|[]]]; [now apply F|]. now exists [c_nl].
Qed.

(** Every text has lines, and only these. *)
Lemma split_break t : (exists l, t = l /\ single_line l) \/ exists l b r, t = l ++ b ++ r /\ single_line l /\ line_break b r.
Proof.
  induction t as [|c t IH]; [left; exists []; split; [reflexivity|split; intros []]|].
  destruct (N.eq_dec c c_nl) as [->|N1]; [right; exists [], [c_nl], t; split; [reflexivity|]; split; [split; intros []|now left]|].
  destruct (N.eq_dec c 13) as [->|N2].
  { right. destruct t as [|d t]; [exists [], [13], []; split; [reflexivity|]; split; [split; intros []|right; right; split; [reflexivity|discriminate]]|].
    destruct (N.eq_dec d c_nl) as [->|N3].
    - exists [], [13; c_nl], t. split; [reflexivity|]. split; [split; intros []|right; now left].
    - exists [], [13], (d :: t). split; [reflexivity|]. split; [split; intros []|]. right. right. split; [reflexivity|]. intros X. now injection X. }
  assert (forall l, single_line l -> single_line (c :: l)) as C.
  { intros l [A B]. split; intros [X|X]; congruence || contradiction. }
  destruct IH as [(l & -> & S)|(l & b & r & -> & S & B)].
  - left. exists (c :: l). split; [reflexivity|now apply C].
  - right. exists (c :: l), b, r. split; [reflexivity|]. split; [now apply C|exact B].
Qed.
Lemma break_long b r : line_break b r -> b <> [].
Proof. intros [->|[->|[-> _]]]; discriminate. Qed.
Lemma has_lines_total t : exists ls, has_lines t ls.
Proof.
  remember (List.length t) as n. revert t Heqn. induction n as [n IH] using (well_founded_induction Wf_nat.lt_wf). intros t ->.
  destruct (split_break t) as [(l & -> & S)|(l & b & r & -> & S & B)].
  - destruct l as [|c l]; [exists []; constructor|]. exists [c :: l]. now constructor.
  - destruct (IH (List.length r)) with (t := r) as (ls & H); [|reflexivity|exists (l :: ls); now constructor].
    rewrite !app_length. pose proof (break_long b r B). destruct b; [congruence|]. cbn [List.length]. lia.
Qed.
Lemma has_lines_fun t ls ls' : has_lines t ls -> has_lines t ls' -> ls = ls'.
Proof.
  assert (forall l b t l' b' t', single_line l -> single_line l' -> line_break b t -> line_break b' t' ->
    l ++ b ++ t = l' ++ b' ++ t' -> l = l' /\ t = t') as J.
  { clear. induction l as [|c l IH]; intros b t [|c' l'] b' t' S S' B B' E.
    - split; [reflexivity|]. cbn [app] in E. destruct B as [->|[->|[-> B]]], B' as [->|[->|[-> B']]]; cbn [app] in E; injection E as E; try congruence.
      all: subst; cbn [hd_error] in *; congruence.
    - exfalso. cbn [app] in E. destruct S' as [X Y]. destruct B as [->|[->|[-> _]]]; injection E as <- _; [apply X|apply Y|apply Y]; now left.
    - exfalso. cbn [app] in E. destruct S as [X Y]. destruct B' as [->|[->|[-> _]]]; injection E as -> _; [apply X|apply Y|apply Y]; now left.
    - cbn [app] in E. injection E as <- E. apply IH in E as [-> ->]; [now split|..]; try assumption.
      + split; intros X; [apply (proj1 S)|apply (proj2 S)]; now right.
      + split; intros X; [apply (proj1 S')|apply (proj2 S')]; now right. }
  assert (forall l b t l', single_line l' -> line_break b t -> l ++ b ++ t = l' -> False) as K.
  { clear. intros l b t l' [X Y] B <-. destruct B as [->|[->|[-> _]]]; [apply X|apply Y|apply Y]; apply in_or_app; right; now left. }
  intros H. revert ls'. induction H as [|l N S|l b t ls S B H IH]; intros ls' H'.
  - remember [] as t eqn:E. destruct H' as [|l N S|l b t ls S B H]; [reflexivity|congruence|]. apply app_eq_nil in E as [_ E]. apply app_eq_nil in E as [E _].
    now apply break_long in B.
  - inversion H' as [X|l' N' S' X|l' b t' ls0 S' B H X Y]; [congruence|reflexivity|]. exfalso. now apply (K l' b t' l).
  - remember (l ++ b ++ t) as u eqn:E. destruct H' as [|l' N' S'|l' b' t' ls' S' B' H'].
    + symmetry in E. apply app_eq_nil in E as [_ E]. apply app_eq_nil in E as [E _]. now apply break_long in B.
    + exfalso. now apply (K l b t l').
    + symmetry in E. apply J in E as [-> ->]; try assumption. f_equal. now apply IH.
Qed.
Theorem input_total i : exists ls, given_lines i ls /\ forall ls', given_lines i ls' -> ls' = ls.
Proof.
  destruct i as [s|t]; cbn [given_lines]; [exists [s]; split; auto|]. destruct (has_lines_total t) as (ls & H). exists ls. split; [exact H|].
  intros ls' H'. exact (has_lines_fun t ls' ls H' H).
Qed.

Theorem report_spec w py fetch f store ks i ls : plain_format f -> readStoreFromJson w (load store) = Ok ks -> given_lines i ls -> Forall encodable ls ->
  let lines := map (strip (char_isspace w)) ls in
  exists failed good, verify_receipt_py w py fetch f store i = (failed, Ok (good, List.length lines))
    /\ (good + List.length failed = List.length lines)%nat
    /\ StronglySorted lt (map fst failed)
    /\ (forall k e, In (k, e) failed -> exists l, nth_error lines k = Some l /\ verify_text w py fetch (fromKeyStore ks) f l = Err e /\ ~ genuine w ks f l)
    /\ (forall k l, nth_error lines k = Some l -> ~ genuine w ks f l -> exists e, In (k, e) failed).
Proof.
  intros P S G E. destruct (given_input w i ls G) as [<- F]. apply F in E. exact (report_lines w py fetch f store ks i P S E).
Qed.

(** ** Formats *)

Lemma verify_given w py fetch v f t r s : one_line w t r -> given w py fetch f r s -> hashed w f r s ->
  verify_text w py fetch v f s = verify_text w py fetch v F_jws t.
Proof.
  intros O G H. destruct (given_reads w py fetch f t r s O G) as (_ & _ & Rd).
  assert (fromJWSString w t = Ok (r, lit "R1")) as J by (apply parse_reads; split; [reflexivity|apply O]).
  rewrite (verify_read w py fetch v F_jws t) by discriminate. cbn [read_receipt]. rewrite J. cbn [bind fst snd].
  assert (f = F_url \/ f <> F_url) as [->|N] by (destruct f; auto; right; discriminate).
  - cbn [verify_text read_receipt hashed] in *. unfold getAndVerifyReceiptURL. destruct (fetch s) as [code|]; [|discriminate]. cbn [bind] in *.
    destruct H as (h & Hh & U). rewrite U. unfold verifyBasicCode. rewrite Rd. cbn [bind fst snd].
    destruct (verify w v r (lit "R1")) as [[r' alg]|e] eqn:V; [|reflexivity]. cbn [bind fst snd].
    assert (r' = r /\ alg = lit "R1") as [-> ->].
    { unfold verify in V. destruct (known_alg (lit "R1")); [|discriminate]. apply bind_Ok in V as (k & _ & V). apply bind_Ok in V as (b & _ & V). destruct b.
      - apply bind_Ok in V as (dm & _ & V). apply bind_Ok in V as (rv & _ & V). destruct (negb rv && isNull r); discriminate.
      - destruct k; [|discriminate]. apply bind_Ok in V as (j & _ & V). destruct (r1_verify w j p); [|discriminate]. apply Ok_inj in V. injection V. auto. }
    cbn [verifyURLHashOpt]. now apply hash_accepted.
  - rewrite verify_read by exact N. now rewrite Rd.
Qed.

Theorem formats_spec w py fetch f store ts rs ins : Forall2 (one_line w) ts rs -> Forall2 (given w py fetch f) rs ins -> Forall2 (hashed w f) rs ins ->
  verify_receipt_py w py fetch f store (V_stdin (lines_text ins)) = verify_receipt_py w py fetch F_jws store (V_stdin (lines_text ts)).
Proof.
  intros O G H. unfold verify_receipt_py. destruct (readStoreFromJson w (load store)) as [ks|]; [|reflexivity]. cbn [input_lines].
  assert (Forall single_line ins /\ Forall single_line ts) as [L1 L2].
  { revert ts O H. induction G as [|r s rs ins G1 G IH]; intros ts O H; inversion O as [|t ? ts' ? O1 O2]; subst; [split; constructor|].
    inversion H; subst. destruct (IH ts') as [A B]; [assumption..|]. destruct (shown_exists w t r F_jws O1) as (t' & Ht). pose proof (jws_shown w t r t' O1 Ht). subst t'.
    split; constructor; try assumption; [apply (given_reads w py fetch f t r s O1 G1)|apply (given_reads w py fetch F_jws t r t O1 Ht)]. }
  rewrite (text_lines ins L1), (text_lines ts L2). clear L1 L2.
  generalize 0%nat at 1 3 as idx. generalize 0%nat as fails. revert ts O H. induction G as [|r s rs ins G1 G IH]; intros ts O H fails idx; inversion O as [|t ? ts' ? O1 O2]; subst; [reflexivity|].
  inversion H; subst. cbn [map verify_lines]. destruct (shown_exists w t r F_jws O1) as (t' & Ht). pose proof (jws_shown w t r t' O1 Ht). subst t'.
  destruct (given_reads w py fetch f t r s O1 G1) as (_ & V1 & _). destruct (given_reads w py fetch F_jws t r t O1 Ht) as (_ & V2 & _).
  rewrite (strip_nl w s V1), (strip_nl w t V2), (verify_given w py fetch _ f t r s) by assumption.
  destruct (verify_text w py fetch (fromKeyStore ks) F_jws t) as [u|e]; [now apply IH|]. destruct (receipt_exception e); [|reflexivity]. now rewrite (IH ts').
Qed.

(** ** OCR codes in Python 3 *)

Theorem ocr_fails w fetch t ts r rs : Forall2 (one_line w) (t :: ts) (r :: rs) ->
  exists outs, Forall2 (shown w F_ocr) (r :: rs) outs
    /\ (forall g, receipt_py w Py3 fetch F_ocr g (lines_text outs) = ([], Some PyAttributeError))
    /\ (forall store ks, readStoreFromJson w (load store) = Ok ks ->
        verify_receipt_py w Py3 fetch F_ocr store (V_stdin (lines_text outs)) = ([], Err PyAttributeError)).
Proof.
  intros O.
  assert (exists outs, Forall2 (shown w F_ocr) (r :: rs) outs /\ Forall single_line outs) as (outs & S & L).
  { clear -O. induction O as [|t' r' ts' rs' O1 O (outs & S & L)]; [exists []; split; constructor|].
    destruct (shown_exists w t' r' F_ocr O1) as (o & Ho). exists (o :: outs). split; constructor; try assumption. now apply (ocr_line w t' r' o O1). }
  exists outs. split; [exact S|]. inversion S as [|? o ? outs' S1 S2]; subst. inversion O as [|? ? ? ? O1 _]; subst. cbn [shown] in S1.
  destruct (ocr_line w t r o O1 S1) as [_ V]. assert (fromJWSString w t = Ok (r, lit "R1")) as J by (apply parse_reads; split; [reflexivity|apply O1]).
  destruct (ocr_py3 w t r _ J) as (o' & Ho & F). rewrite S1 in Ho. apply Ok_inj in Ho. subst o'. split.
  - intros g. unfold receipt_py. rewrite (text_lines _ L). cbn [map convert_lines]. unfold convert_line. rewrite (strip_nl w o V). cbn [read_receipt]. now rewrite F.
  - intros store ks K. unfold verify_receipt_py. rewrite K. cbn [input_lines]. rewrite (text_lines _ L). cbn [map verify_lines]. rewrite (strip_nl w o V).
    cbn [verify_text]. unfold verifyOCRCode. now rewrite F.
Qed.
