(** Test specifications whose last receipt cannot be read. *)
From Coq Require Import Lia ZifyClasses ZifyN ZifyNat ZifyBool.
From Verif Require Import PyBase World ListFacts Codec CodecFacts PyFloat PyTime Algo Receipt SpecReceipt ReceiptFacts Json Pem KeyStore State
  DepBase DepParser Verify DepExport VerifyReceipt VerifyFacts SpecDep SpecCluster SpecDoc SpecKeys SpecMerge SpecExport SeqFacts SpecState
  SpecReading ReadingFacts PrintedFacts SpecDiag DiagFacts CaughtFacts SpecAmount CashReg SpecCashReg CashRegFacts CashRegSeq Override OverrideFacts SpecOverride OverrideCaught LastTheorems AcceptFacts
  RunTest SpecRunTest RunTestFacts RunTestSeq TestVerify SpecTestVerify TestVerifyFacts RunTestOver SpecGarbled GarbledFacts.
Open Scope N_scope.
Open Scope py_scope.

Lemma register_before w b id k size g0 l q v g recs : hash_ok w -> aes_ok w ->
  identifier id -> List.length k = 32%nat -> new_cashreg id None 0 k size = Ok g0 -> orderly w size b (l ++ [(q, v)]) ->
  issue_all w g0 (map fst l) = (g, Ok recs) -> register_ok g /\ request_ok w v q.
Proof.
  intros Hh Ha Id Lk New Or Ei. unfold new_cashreg in New. destruct (negb _) eqn:Sz in New; [|discriminate]. apply Ok_inj in New.
  assert (register_ok g0) as G0. { subst g0. split; [exact Id|]. split; [exact Lk|]. split; [cbn; lia|]. intros s [=]. }
  assert (cr_counter g0 = 0%Z /\ cr_size g0 = size) as (C0 & Z0) by (subst g0; auto).
  clear New. destruct (orderly_prefix_ok _ _ _ _ _ Or) as [Ql Qq]. cbn [fst snd] in Qq. pose proof Or as (_ & _ & _ & _ & Co & _). rewrite map_app in Co. cbn [map fst] in Co.
  destruct (issue_all_run w l Hh Ha g0 G0 Ql) as (items & g1 & Ei' & R).
  { intros l1 q0 l2 z E Sd Tz. rewrite C0, Z0. apply (Co l1 q0 (l2 ++ [q]) z); [|exact Sd|exact Tz]. rewrite E, <- app_assoc. reflexivity. }
  rewrite Ei in Ei'. injection Ei' as <- _. destruct (OverrideCaught.run_ok w l g0 items g G0 R) as (G & _). split; assumption.
Qed.

Lemma text_encodable r alg t h sg : toJWSString r alg = Ok t -> r_sig r = Some (h, sg) -> encodable sg -> encodable t.
Proof.
  unfold toJWSString. intros E Es (sb & Eb). rewrite Es in E. apply bind_Ok in E as (p & _ & (pb & _ & (hb & _ & E)%bind_Ok)%bind_Ok). apply Ok_inj in E. subst t.
  assert (forall s, Forall (fun c => c < 128) s -> utf8_encode s = Ok s) as A by (intros s; apply utf8_encode_ascii).
  cbn [join]. assert (forall s, Forall (fun c => c < 128) s -> encodable s) as B by (intros s F; exists s; now apply A).
  assert (encodable [c_dot]) as D by (apply B; constructor; [reflexivity|constructor]).
  pose proof (B _ (b64url_nopad_ascii hb)) as H1. pose proof (B _ (b64url_nopad_ascii pb)) as H2. assert (encodable sg) as H3 by now exists sb.
  rewrite !encodable_app. tauto.
Qed.

Lemma given_encodable w v g o q g' r t e : hash_ok w -> aes_ok w -> register_ok g -> request_ok w v q ->
  issue_over w g (lit "R1") o q = (g', Ok r) -> toJWSString r (given (ov_prefix o) (lit "R1")) = Ok t ->
  garbled w q t o e -> (forall s, ov_signature o = Some s -> encodable s) -> encodable t.
Proof.
  intros Hh Ha G Q Ei Et J En. destruct (over_shape w v g o q g' r Hh Ha G Q (garbled_size _ _ _ _ _ J) Ei) as (tc & ch & sg & _ & _ & (b & Sd) & _ & Es).
  apply (text_encodable _ _ _ _ _ Et Es). destruct (ov_signature o) as [s|]; [now apply En|]. exists sg. apply utf8_encode_ascii. exact (seg_ascii _ _ Sd).
Qed.

(** The fault of the text of a garbled receipt *)
Theorem garbled_text w v g o q g' r t e : hash_ok w -> aes_ok w -> register_ok g -> request_ok w v q ->
  issue_over w g (lit "R1") o q = (g', Ok r) -> toJWSString r (given (ov_prefix o) (lit "R1")) = Ok t -> (forall s, ov_signature o = Some s -> encodable s) ->
  garbled w q t o e -> fromJWSString w t = Err e.
Proof.
  intros Hh Ha G Q Ei Et Es0 J. pose proof (given_encodable w v g o q g' r t e Hh Ha G Q Ei Et J Es0) as Ent. destruct (garbled_printed w v g o q g' r t e Hh Ha G Q Ei J) as (h & sg & Es & P).
  now apply (printed_diagnosis w r _ h sg t e Et Es Ent).
Qed.

Lemma text_dots r alg t : toJWSString r alg = Ok t -> t <> [].
Proof.
  unfold toJWSString. destruct (r_sig r) as [[h sg]|]; [|discriminate]. intros E. repeat (apply bind_Ok in E as (? & _ & E)). apply Ok_inj in E. subst t.
  intros X. apply app_eq_nil in X as [_ X]. discriminate X.
Qed.

Lemma garbled_class w q t o e : garbled w q t o e -> classes e <> [].
Proof. intros J. now destruct J. Qed.

Theorem garbled_outcomes w sch random ks b id key size multi devs l lq i q v g0 g recs g' r t e :
  hash_ok w -> aes_ok w -> pem_ok w -> (forall n, isolated (sch n)) ->
  identifier id -> List.length key = 32%nat -> new_cashreg id None 0 key size = Ok g0 ->
  Forall (fun j => in_new j = NO_NEW_DEP) (l ++ [i]) -> Forall2 (asked ks multi devs) l lq -> wanted ks multi devs i (q, v) ->
  orderly w size b (lq ++ [(q, v)]) -> devices_trusted w ks multi devs (l ++ [i]) ->
  issue_all w g0 (map fst lq) = (g, Ok recs) -> issue_over w g (lit "R1") (in_over i) q = (g', Ok r) ->
  toJWSString r (given (ov_prefix (in_over i)) (lit "R1")) = Ok t ->
  (forall s, ov_signature (in_over i) = Some s -> encodable s) -> garbled w q t (in_over i) e ->
  exists dep, runTest w id key size multi devs (l ++ [i]) = Ok [dep]
    /\ testVerify w ks key b [dep] = T_raised e
    /\ parse_deps w sch random ks (Some key) (new_cluster b) [] 0 [dep] = T_raised e.
Proof.
  intros Hh Ha Hp Iso Id Lk New Nn As Wa Or Dt Ea Eo Et Es0 J.
  destruct (register_before w b id key size g0 lq q v g recs Hh Ha Id Lk New Or Ea) as [G Q].
  pose proof (garbled_text w v g (in_over i) q g' r t e Hh Ha G Q Eo Et Es0 J) as F. pose proof (given_encodable w v g (in_over i) q g' r t e Hh Ha G Q Eo Et J Es0) as Ent.
  apply (last_outcomes w sch random ks b id key size multi devs l lq i q v g0 g recs g' r t e Hh Ha Hp Iso Id Lk New Nn As Wa Or Dt Ea Eo Et Ent (text_dots _ _ _ Et)).
  intros texts items _ _ _. split.
  - intros r1 R _. exact (read_not _ _ _ _ F R).
  - intros e1 e2 [(U & ->)|(r1 & reg1 & R & _)]; [|destruct (read_not _ _ _ _ F R)].
    apply (jws_diagnosis w t e1 Ent) in U. split; congruence.
Qed.

Theorem garbled_test w say sch random x ks b id key size multi devs l lq i q v g0 g recs g' r t e :
  hash_ok w -> aes_ok w -> pem_ok w -> (forall n, isolated (sch n)) ->
  identifier id -> List.length key = 32%nat -> new_cashreg id None 0 key size = Ok g0 ->
  Forall (fun j => in_new j = NO_NEW_DEP) (l ++ [i]) -> Forall2 (asked ks multi devs) l lq -> wanted ks multi devs i (q, v) ->
  orderly w size b (lq ++ [(q, v)]) -> devices_trusted w ks multi devs (l ++ [i]) ->
  issue_all w g0 (map fst lq) = (g, Ok recs) -> issue_over w g (lit "R1") (in_over i) q = (g', Ok r) ->
  toJWSString r (given (ov_prefix (in_over i)) (lit "R1")) = Ok t ->
  (forall s, ov_signature (in_over i) = Some s -> encodable s) -> garbled w q t (in_over i) e ->
  test_spec w say sch random x ks id key size multi devs b (l ++ [i]) = Ok (R_OK, None) <-> expects say x (Some e).
Proof.
  intros Hh Ha Hp Iso Id Lk New Nn As Wa Or Dt Ea Eo Et Es0 J.
  destruct (garbled_outcomes w sch random ks b id key size multi devs l lq i q v g0 g recs g' r t e Hh Ha Hp Iso Id Lk New Nn As Wa Or Dt Ea Eo Et Es0 J) as (dep & E1 & E2 & E3).
  rewrite spec_ok. split.
  - intros (_ & deps & E & A & _). rewrite E1 in E. apply Ok_inj in E. subst deps. rewrite E2 in A. destruct A as [(c & X & _)|(e' & X & _ & A)]; [discriminate X|].
    injection X as <-. exact A.
  - intros X. split; [reflexivity|]. exists [dep]. split; [exact E1|]. pose proof (proj1 (classes_verification e) (garbled_class _ _ _ _ _ J)) as Ve.
    split; right; exists e; [rewrite E2|]; auto.
Qed.
