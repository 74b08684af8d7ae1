(** What the verdict on a single receipt depends on (C44, C45). *)
From Coq Require Import Lia ZifyClasses ZifyN ZifyNat ZifyBool.
From Verif Require Import PyBase World Regex Codec PyFloat PyTime Algo Receipt Json KeyStore VerifyReceipt ListFacts CodecFacts
  CodecFacts2 SpecReceipt FieldFacts ReceiptFacts RoundTrip RoundTrip2.
Open Scope N_scope.
Open Scope py_scope.

(** ** The verdict on a receipt that is read from some text *)

(** The verdict but for the form of the signature. *)
Definition verdict (x : result (receipt * str)) : option exn := match x with Ok _ => None | Err e => Some e end.

Lemma marker_text sg b : seg_decodes sg b -> b <> fail_marker -> str_eqb failStr sg = false.
Proof.
  intros G N. apply str_eqb_neq. intros <-. apply N. unfold failStr in G.
  assert (is_bytes fail_marker) as B by (apply (utf8_encode_bytes fail_marker); reflexivity).
  destruct (seg_nopad _ B) as [_ G']. destruct G as [_ G]. rewrite G in G'. now apply Ok_inj in G'.
Qed.

Lemma choose_sig w v r sg : choose_key w v (with_sig r sg) = choose_key w v r.
Proof. reflexivity. Qed.

Lemma r1_verify_parts w k h p sg b : ~ In c_dot h -> ~ In c_dot p -> ~ In c_dot sg -> p <> [] -> seg_decodes sg b ->
  r1_verify w (h ++ [c_dot] ++ p ++ [c_dot] ++ sg) k = w_es256_verify w k (h ++ [c_dot] ++ p) b.
Proof.
  intros Nh Np Ns Pn [_ G]. unfold r1_verify. cbn [app]. rewrite split_char_app, split_char_app, split_char_nosep by assumption.
  apply b64url_decode_str_iff in G. rewrite G. destruct p as [|x p]; [contradiction|]. reflexivity.
Qed.

Lemma nopad_nonempty b : b <> [] -> b64url_nopad b <> [].
Proof.
  intros N E. pose proof (restore_padding b) as R. rewrite E in R. cbn in R.
  destruct b as [|x [|y [|z b]]]; [contradiction|discriminate..].
Qed.

(** For a signed receipt: the key is chosen, then the signature over the canonical form is checked. *)
Lemma verify_signed w v f sg r b pb : is_receipt w f (Some (es256_header, sg)) r -> utf8_encode (payload_text f) = Ok pb ->
  seg_decodes sg b -> b <> fail_marker ->
  verify w v r (lit "R1") =
    do key <- choose_key w v r;
    match key with
    | None => Err (NoPublicKey (r_receiptId r))
    | Some k => if w_es256_verify w k (b64url_nopad es256_header ++ [c_dot] ++ b64url_nopad pb) b
                then Ok (r, lit "R1") else Err (InvalidSignature (r_receiptId r))
    end.
Proof.
  intros I E G N. unfold verify. change (known_alg (lit "R1")) with true. cbn iota.
  destruct (choose_key w v r) as [key|e]; cbn [bind]; [|reflexivity].
  unfold isSignedBroken. destruct I as (F & S & I). rewrite S, (marker_text sg b G N). cbn [bind].
  destruct key as [k|]; [|reflexivity].
  rewrite (toJWSString_spec w f sg r pb (conj F (conj S I)) E). cbn [bind].
  rewrite (r1_verify_parts w k _ _ sg b).
  - reflexivity.
  - apply b64url_nopad_nodot.
  - apply b64url_nopad_nodot.
  - eapply seg_no_dot; apply G.
  - apply nopad_nonempty. intros ->. apply utf8_decode_encode in E. discriminate.
  - exact G.
Qed.

(** ** C45 *)

Theorem qr_verdict w v s r alg q : fromJWSString w s = Ok (r, alg) -> toBasicCode r alg = Ok q ->
  forall sg, r_sig r = Some (es256_header, sg) -> canon_seg sg -> verifyBasicCode w v q = verifyJWS w v s.
Proof.
  intros J Q sg S C. pose proof J as J0. apply jws_to_qr in J0 as (q' & b & (sg' & S' & G) & Q' & B).
  rewrite S in S'. injection S' as <-. rewrite Q in Q'. apply Ok_inj in Q'. subst q'.
  unfold verifyBasicCode, verifyJWS. rewrite J, B. cbn [bind fst snd].
  pose proof J as J0. apply fromJWSString_spec in J0 as (_ & f & sg' & _ & I).
  assert (sg' = sg) as -> by (destruct I as (_ & S2 & _); rewrite S in S2; now injection S2).
  now rewrite (proj2 (canonical_sig_id w f sg r b I G) C).
Qed.

Theorem csv_verdict w v s r alg csv : fromJWSString w s = Ok (r, alg) -> csv_safe w (r_fields r) -> toCSV r alg = Ok csv ->
  forall sg, r_sig r = Some (es256_header, sg) -> canon_seg sg -> verifyCSV w v csv = verifyJWS w v s.
Proof.
  intros J Sf Q sg S C. destruct (csv_roundtrip w s r alg J Sf) as (csv' & b & (sg' & S' & G) & Q' & B).
  rewrite S in S'. injection S' as <-. rewrite Q in Q'. apply Ok_inj in Q'. subst csv'.
  unfold verifyCSV, verifyJWS. rewrite J, B. cbn [bind fst snd].
  pose proof J as J0. apply fromJWSString_spec in J0 as (_ & f & sg' & _ & I).
  assert (sg' = sg) as -> by (destruct I as (_ & S2 & _); rewrite S in S2; now injection S2).
  now rewrite (proj2 (canonical_sig_id w f sg r b I G) C).
Qed.

Theorem ocr_verdict w v s r alg o : fromJWSString w s = Ok (r, alg) -> b64decode (r_encTC r) <> Ok [] -> toOCRCode r alg = Ok o ->
  forall sg, r_sig r = Some (es256_header, sg) -> canon_seg sg -> canon64 (r_encTC r) -> canon64 (r_previousChain r) ->
  verifyOCRCode w Py2 v o = verifyJWS w v s.
Proof.
  intros J N O sg S C T P. destruct (ocr_roundtrip_py2 w s r alg J N) as (o' & r' & O' & R & Q).
  rewrite O in O'. apply Ok_inj in O'. subst o'. rewrite (same_canonical r r' sg Q S T P C) in R.
  unfold verifyOCRCode, verifyJWS. now rewrite J, R.
Qed.

(** Without canonical signatures, unless it is the marker of unsigned receipts. *)
Lemma canonical_verdict w v s r alg b : fromJWSString w s = Ok (r, alg) -> sig_value r b -> b <> fail_marker ->
  verify w v (canonical_sig r b) alg = match verify w v r alg with Ok _ => Ok (canonical_sig r b, alg) | Err e => Err e end.
Proof.
  intros J (sg & S & G) N. apply fromJWSString_spec in J as (-> & f & sg' & (h & p & hb & pb & gb & -> & _ & _ & _ & Pb & _) & I).
  assert (sg' = sg) as -> by (destruct I as (_ & S2 & _); rewrite S in S2; now injection S2).
  assert (is_bytes b) as Bb by (now apply seg_decodes_bytes in G).
  rewrite (verify_signed w v f sg r b pb I Pb G N).
  rewrite (verify_signed w v f (b64url_nopad b) (canonical_sig r b) b pb); [|eapply is_receipt_sig; exact I|exact Pb|now apply seg_nopad|exact N].
  unfold canonical_sig. rewrite choose_sig. destruct (choose_key w v r) as [[k|]|e]; cbn [bind]; try reflexivity.
  destruct (w_es256_verify w k (b64url_nopad es256_header ++ [c_dot] ++ b64url_nopad pb) b); reflexivity.
Qed.

Theorem qr_verdict_any w v s r alg q b : fromJWSString w s = Ok (r, alg) -> toBasicCode r alg = Ok q ->
  sig_value r b -> b <> fail_marker ->
  verifyBasicCode w v q = match verifyJWS w v s with Ok _ => Ok (canonical_sig r b, alg) | Err e => Err e end.
Proof.
  intros J Q SV N. pose proof J as J0. apply jws_to_qr in J0 as (q' & b' & (sg & S & G) & Q' & B).
  rewrite Q in Q'. apply Ok_inj in Q'. subst q'. destruct SV as (sg' & S' & G').
  rewrite S in S'. injection S' as <-. assert (b' = b) as ->.
  { destruct G as [_ G], G' as [_ G']. rewrite G in G'. now apply Ok_inj in G'. }
  unfold verifyBasicCode, verifyJWS. rewrite J, B. cbn [bind fst snd].
  apply (canonical_verdict w v s); [exact J|now exists sg|exact N].
Qed.

(** ** C44 *)

(** [s] has the given payload and signature bytes. *)
Definition jws_bytes (s : str) (payload signature : bytes) : Prop :=
  exists h p g, s = h ++ [c_dot] ++ p ++ [c_dot] ++ g /\ seg_decodes h es256_header /\ seg_decodes p payload
    /\ seg_decodes g signature.
Definition jws_canonical (s : str) : Prop :=
  exists h p g, s = h ++ [c_dot] ++ p ++ [c_dot] ++ g /\ canon_seg h /\ canon_seg p /\ canon_seg g.

Lemma jws_read w s r alg : fromJWSString w s = Ok (r, alg) -> exists f sg pb b, alg = lit "R1"
  /\ is_receipt w f (Some (es256_header, sg)) r /\ utf8_encode (payload_text f) = Ok pb /\ seg_decodes sg b /\ jws_bytes s pb b
  /\ wf_printed w f.
Proof.
  intros J. apply fromJWSString_spec in J as (-> & f & sg & (h & p & hb & pb & gb & -> & Hh & Hb & Hp & Pb & G & W) & I).
  rewrite header_bytes in Hb. apply Ok_inj in Hb. subst hb.
  exists f, sg, pb, gb. repeat (split; [assumption || reflexivity|]). split; [now exists h, p, sg|exact W].
Qed.

Lemma jws_bytes_fun s p g p' g' : jws_bytes s p g -> jws_bytes s p' g' -> p = p' /\ g = g'.
Proof.
  intros (h1 & p1 & g1 & -> & H1 & P1 & G1) (h2 & p2 & g2 & E & H2 & P2 & G2).
  apply dot_unique in E as (-> & -> & ->); try (eapply seg_no_dot; first [apply H1|apply P1|apply G1|apply H|apply P|apply G]).
  destruct P1 as [_ P1], P2 as [_ P2], G1 as [_ G1], G2 as [_ G2]. rewrite P1 in P2. rewrite G1 in G2.
  apply Ok_inj in P2, G2. now split.
Qed.

(** What an accepted string says about the signature. *)
Theorem accepted_signed w v s r alg : verifyJWS w v s = Ok (r, alg) ->
  exists k p b, choose_key w v r = Ok (Some k) /\ jws_bytes s p b
    /\ w_es256_verify w k (b64url_nopad es256_header ++ [c_dot] ++ b64url_nopad p) b = true.
Proof.
  unfold verifyJWS. intros H. apply bind_Ok in H as ([r' alg'] & J & H). cbn [fst snd] in H.
  destruct (jws_read _ _ _ _ J) as (f & sg & pb & b & -> & I & Pb & G & B & _).
  assert (str_eqb failStr sg = false) as M.
  { unfold verify in H. change (known_alg (lit "R1")) with true in H. cbn iota in H. apply bind_Ok in H as (k & _ & H).
    apply bind_Ok in H as (br & Hb & H). unfold isSignedBroken in Hb. destruct I as (_ & S & _). rewrite S in Hb.
    apply Ok_inj in Hb. subst br. destruct (str_eqb failStr sg); [|reflexivity].
    apply bind_Ok in H as (d & _ & H). apply bind_Ok in H as (rv & _ & H). destruct (negb rv && isNull r'); discriminate. }
  unfold verify in H. change (known_alg (lit "R1")) with true in H. cbn iota in H. apply bind_Ok in H as (k & K & H).
  unfold isSignedBroken in H. destruct (I) as (F & S & I'). rewrite S, M in H. cbn [bind] in H.
  destruct k as [k|]; [|discriminate]. rewrite (toJWSString_spec w f sg r' pb I Pb) in H. cbn [bind] in H.
  rewrite (r1_verify_parts w k _ _ sg b) in H.
  - destruct (w_es256_verify w k (b64url_nopad es256_header ++ [c_dot] ++ b64url_nopad pb) b) eqn:V; [|discriminate].
    apply Ok_inj in H. injection H as <- _. now exists k, pb, b.
  - apply b64url_nopad_nodot.
  - apply b64url_nopad_nodot.
  - eapply seg_no_dot; apply G.
  - apply nopad_nonempty. intros ->. apply utf8_decode_encode in Pb. discriminate.
  - exact G.
Qed.

(** For canonical strings this is the string itself. *)
Lemma canonical_text s p b : jws_canonical s -> jws_bytes s p b ->
  s = b64url_nopad es256_header ++ [c_dot] ++ b64url_nopad p ++ [c_dot] ++ b64url_nopad b.
Proof.
  intros (h & q & g & -> & Ch & Cp & Cg) (h' & p' & g' & E & H & P & G).
  symmetry in E. apply dot_unique in E as (-> & -> & ->); try (eapply seg_no_dot; first [apply H1|apply P1|apply G1|apply H|apply P|apply G]).
  apply (seg_canon _ _ H) in Ch. apply (seg_canon _ _ P) in Cp. apply (seg_canon _ _ G) in Cg. now rewrite <- Ch, <- Cp, <- Cg.
Qed.

Theorem canonical_unique s s' p b : jws_canonical s -> jws_canonical s' -> jws_bytes s p b -> jws_bytes s' p b -> s = s'.
Proof. intros C C' B B'. rewrite (canonical_text s p b C B). now rewrite (canonical_text s' p b C' B'). Qed.

Theorem accepted_exact w v s r alg : verifyJWS w v s = Ok (r, alg) -> jws_canonical s ->
  exists k i b, choose_key w v r = Ok (Some k) /\ s = i ++ [c_dot] ++ b64url_nopad b /\ w_es256_verify w k i b = true.
Proof.
  intros H C. destruct (accepted_signed _ _ _ _ _ H) as (k & p & b & K & B & V). exists k, (b64url_nopad es256_header ++ [c_dot] ++ b64url_nopad p), b.
  split; [exact K|]. split; [|exact V]. rewrite (canonical_text s p b C B). rewrite <- !app_assoc. reflexivity.
Qed.

(** Strings with the same payload and signature get the same verdict. *)
Theorem same_bytes_verdict w v s s' p b : jws_bytes s p b -> jws_bytes s' p b -> b <> fail_marker ->
  (exists x, fromJWSString w s = Ok x) -> verdict (verifyJWS w v s) = verdict (verifyJWS w v s').
Proof.
  intros B B' N ([r alg] & J). pose proof J as J0. destruct (jws_read _ _ _ _ J) as (f & sg & pb & b1 & -> & I & Pb & G & B1 & W).
  destruct (jws_bytes_fun _ _ _ _ _ B B1) as [-> ->].
  destruct B' as (h & q & g & -> & Hh & Hq & Hg).
  assert (fromJWSString w (h ++ [c_dot] ++ q ++ [c_dot] ++ g) = Ok (with_sig r (es256_header, g), lit "R1")) as J'.
  { apply fromJWSString_spec. split; [reflexivity|]. exists f, g. split; [|eapply is_receipt_sig; exact I].
    exists h, q, es256_header, pb, b1. repeat (split; [assumption || reflexivity|]). exact W. }
  unfold verifyJWS. rewrite J0, J'. cbn [bind fst snd].
  rewrite (verify_signed w v f sg r b1 pb I Pb G N).
  rewrite (verify_signed w v f g (with_sig r (es256_header, g)) b1 pb); [|eapply is_receipt_sig; exact I|exact Pb|exact Hg|exact N].
  rewrite choose_sig. destruct (choose_key w v r) as [[k|]|e]; cbn [bind]; try reflexivity.
  destruct (w_es256_verify w k (b64url_nopad es256_header ++ [c_dot] ++ b64url_nopad pb) b1); reflexivity.
Qed.
