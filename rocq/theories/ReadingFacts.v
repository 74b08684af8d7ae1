(** Reading receipts: the exceptions raised. *)
From Coq Require Import Lia ZifyClasses ZifyN ZifyNat ZifyBool.
From Verif Require Import PyBase World Regex Codec PyFloat PyTime Algo Receipt ListFacts RegexFacts CodecFacts CodecFacts2 SpecReceipt FieldFacts ReceiptFacts RoundTrip RoundTrip2
  SpecReading.
Open Scope N_scope.
Open Scope py_scope.

(** ** The parts *)
Lemma parts_fun s h p sg h' p' sg' : jws_parts s h p sg -> jws_parts s h' p' sg' -> h = h' /\ p = p' /\ sg = sg'.
Proof.
  intros (x & y & hb & pb & E & D & _ & Sx & Eh & Sy & Ep) (x' & y' & hb' & pb' & E' & D' & _ & Sx' & Eh' & Sy' & Ep').
  pose proof (seg_no_dot _ _ (proj2 Sx)) as N1. pose proof (seg_no_dot _ _ (proj2 Sy)) as N2. pose proof (seg_no_dot _ _ (proj2 Sx')) as N3. pose proof (seg_no_dot _ _ (proj2 Sy')) as N4.
  subst s. assert (split_char c_dot (x ++ [c_dot] ++ y ++ [c_dot] ++ sg) = split_char c_dot (x' ++ [c_dot] ++ y' ++ [c_dot] ++ sg')) as S by congruence.
  cbn [app] in S. rewrite !split_char_app in S by assumption. rewrite !split_char_nosep in S by assumption. injection S as <- <- <-.
  rewrite (seg_decodes_fun _ _ _ Sx Sx') in Eh. rewrite (seg_decodes_fun _ _ _ Sy Sy') in Ep.
  apply utf8_decode_encode in Eh, Eh', Ep, Ep'. rewrite Eh in Eh'. rewrite Ep in Ep'. apply Ok_inj in Eh', Ep'. auto.
Qed.

Lemma payload_fun p alg f alg' f' : payload_parts p alg f -> payload_parts p alg' f' -> alg = alg' /\ f = f'.
Proof.
  intros (E & N & D & Z) (E' & N' & D' & Z').
  assert (split_char c_us (join [c_us] (elements alg f)) = split_char c_us (join [c_us] (elements alg' f'))) as S by congruence.
  rewrite !split_join in S by (assumption || discriminate). unfold elements in S. injection S as S1 S2 S3 S4 S5 S6 S7 S8 S9 S10 S11 S12.
  cbn [app] in S1. assert (split_char c_dash (alg ++ c_dash :: f_zda f) = split_char c_dash (alg' ++ c_dash :: f_zda f')) as S by (now rewrite S1).
  rewrite !split_char_app in S by assumption. rewrite !split_char_nosep in S by assumption. injection S as <- S13.
  split; [reflexivity|]. destruct f, f'. rsimpl. now subst.
Qed.

Lemma alg_spec w s : re_match (algRegex w) s = true <-> alg_text w s.
Proof.
  rewrite re_match_spec. unfold algRegex, alg_text. split.
  - intros (t & nl & -> & H & Hn). apply lang_Seq in H as (sa & r & -> & Ha & H). apply lang_Chr in Ha. subst sa.
    apply lang_Seq in H as (sc & ds & -> & Hc & H). apply lang_R19 in Hc as (c & -> & Hc). apply lang_Rds in H. exists c, ds, nl. auto.
  - intros (c & ds & nl & -> & Hn & Hc & Hd). exists (82 :: c :: ds), nl. split; [reflexivity|]. split; [|exact Hn].
    apply lang_Seq. exists [82], (c :: ds). split; [reflexivity|]. split; [now apply lang_Chr|].
    apply lang_Seq. exists [c], ds. split; [reflexivity|]. split; [apply lang_R19; eauto|]. now apply lang_Rds.
Qed.

(** ** The constructor *)
Lemma malformed_b64 s id e : encodable s -> getEmptyOrB64 s id = Err e -> e = MalformedReceipt id.
Proof.
  intros [b Hb] H. unfold getEmptyOrB64, catch, b64decode_str in H. rewrite Hb in H. cbn [bind] in H.
  destruct (b64decode b) as [x|x] eqn:E; [discriminate|]. apply (b64decode_utf8_err s) in E as [->| ->]; [..|assumption]; now injection H as <-.
Qed.

Lemma amount_sum w s id : amount_text w s <-> exists f, getSum w s id = Ok f.
Proof.
  split.
  - intros A. destruct (amount_float w s A) as (f & E). exists f. apply getSum_spec. auto.
  - intros (f & E). now apply getSum_spec in E.
Qed.

Lemma known_type w s : known_serial w s <-> getCertSerialType w s <> T_INVALID.
Proof.
  unfold known_serial. rewrite <- key_id_spec, <- cert_serial_spec. destruct (getCertSerialType w s); cbn [In]; intuition discriminate.
Qed.

Lemma mk_diag w f : encodable (f_tc f) -> encodable (f_chain f) -> ~ In c_us (f_receipt f) -> ~ In c_us (f_register f) ->
  (exists r, mk_of w f = Ok r) \/ exists e, mk_of w f = Err e /\ field_fault w f e.
Proof.
  intros Et Ec Ni Nr. destruct (mk_of w f) as [r|e] eqn:M; [left; eauto|]. right. exists e. split; [reflexivity|].
  unfold mk_of, mk_receipt in M. destruct f as [zda reg rid tim sa sb sc sd se tc ser ch]. rsimpl.
  apply has_char_false in Ni, Nr. rewrite Ni, Nr in M. cbn [negb andb] in M. rewrite andb_true_r in M.
  destruct (nonempty rid) eqn:C1. 2:{ injection M as <-. apply ff_no_id. destruct rid; [reflexivity|discriminate C1]. }
  apply nonempty_spec in C1.
  destruct (nonempty zda && re_match (zdaRegex w) zda) eqn:C3.
  2:{ injection M as <-. apply (ff_unsound w (Fields zda reg rid tim sa sb sc sd se tc ser ch) C1). intros (_ & Z & _). apply zda_spec in Z. rsimpl. congruence. }
  apply zda_spec in C3.
  destruct (nonempty reg) eqn:C4. 2:{ injection M as <-. apply (ff_unsound w (Fields zda reg rid tim sa sb sc sd se tc ser ch) C1). intros (R & _). rsimpl. apply nonempty_spec in R. congruence. }
  apply nonempty_spec in C4.
  assert (forall x, x = MalformedReceipt rid -> ~ sound_fields w (Fields zda reg rid tim sa sb sc sd se tc ser ch) -> x = e -> field_fault w (Fields zda reg rid tim sa sb sc sd se tc ser ch) e) as U.
  { intros x -> S <-. exact (ff_unsound w (Fields zda reg rid tim sa sb sc sd se tc ser ch) C1 S). }
  destruct (getTimestamp w tim rid) as [d|x] eqn:T; cbn [bind] in M.
  2:{ injection M as M. refine (U x (getTimestamp_err _ _ _ _ T) _ M). intros (_ & _ & (d & X) & _). rsimpl. apply (getTimestamp_spec w tim rid) in X. congruence. }
  apply getTimestamp_spec in T.
  destruct (getSum w sa rid) as [fa|x] eqn:A; cbn [bind] in M.
  2:{ injection M as M. refine (U x (getSum_err _ _ _ _ A) _ M). intros S. assert (amount_text w sa) as X by apply S. apply (amount_sum w _ rid) in X as (y & X). congruence. }
  destruct (getSum w sb rid) as [fb|x] eqn:B; cbn [bind] in M.
  2:{ injection M as M. refine (U x (getSum_err _ _ _ _ B) _ M). intros S. assert (amount_text w sb) as X by apply S. apply (amount_sum w _ rid) in X as (y & X). congruence. }
  destruct (getSum w sc rid) as [fc|x] eqn:C; cbn [bind] in M.
  2:{ injection M as M. refine (U x (getSum_err _ _ _ _ C) _ M). intros S. assert (amount_text w sc) as X by apply S. apply (amount_sum w _ rid) in X as (y & X). congruence. }
  destruct (getSum w sd rid) as [fd|x] eqn:D; cbn [bind] in M.
  2:{ injection M as M. refine (U x (getSum_err _ _ _ _ D) _ M). intros S. assert (amount_text w sd) as X by apply S. apply (amount_sum w _ rid) in X as (y & X). congruence. }
  destruct (getSum w se rid) as [fe|x] eqn:E; cbn [bind] in M.
  2:{ injection M as M. refine (U x (getSum_err _ _ _ _ E) _ M). intros S. assert (amount_text w se) as X by apply S. apply (amount_sum w _ rid) in X as (y & X). congruence. }
  destruct (getEmptyOrB64 tc rid) as [tb|x] eqn:G; cbn [bind] in M.
  2:{ injection M as M. refine (U x (malformed_b64 _ _ _ Et G) _ M). intros S. assert (exists b, b64decode tc = Ok b) as (b & X) by apply S. apply (getEmptyOrB64_Ok tc rid) in X. congruence. }
  destruct (getEmptyOrB64 ch rid) as [cb|x] eqn:H; cbn [bind] in M.
  2:{ injection M as M. refine (U x (malformed_b64 _ _ _ Ec H) _ M). intros S. assert (exists b, b64decode ch = Ok b) as (b & X) by apply S. apply (getEmptyOrB64_Ok ch rid) in X. congruence. }
  destruct (nonempty ser) eqn:C5.
  2:{ injection M as <-. refine (U _ eq_refl _ eq_refl). intros S. assert (ser <> []) as X by apply S. apply nonempty_spec in X. congruence. }
  apply nonempty_spec in C5. apply getEmptyOrB64_Ok in G, H. clear U.
  assert (sound_fields w (Fields zda reg rid tim sa sb sc sd se tc ser ch)) as So.
  { unfold sound_fields. rsimpl. split; [exact C4|]. split; [exact C3|]. split; [eauto|].
    do 5 (split; [apply (amount_sum w _ rid); eauto|]). split; [eauto|]. split; [eauto|exact C5]. }
  clear A B C D E T. pose proof (known_type w ser) as Kt. pose proof (key_id_spec w ser) as Ki. pose proof (cert_serial_spec w ser) as Cs.
  set (chk := match getCertSerialType w ser with T_INVALID => _ | _ => _ end) in M.
  assert (chk = Ok tt /\ right_provider w (Fields zda reg rid tim sa sb sc sd se tc ser ch)
    \/ exists x, chk = Err x /\ field_fault w (Fields zda reg rid tim sa sb sc sd se tc ser ch) x) as [[Ek Rp]|(x & Ek & Fx)].
  { unfold chk, right_provider. rsimpl. clear M chk. destruct (getCertSerialType w ser) eqn:Ty.
    - destruct (str_eqb zda (lit "AT0")) eqn:Z; cbn [negb].
      + right. eexists. split; [reflexivity|]. apply str_eqb_eq in Z. apply (ff_provider w (Fields zda reg rid tim sa sb sc sd se tc ser ch) C1 So); [now apply Kt|].
        intros [(_ & K)|(K & _)]; rsimpl; [apply Ki in K; cbn in K; intuition discriminate|now apply K].
      + left. apply str_eqb_neq in Z. split; [reflexivity|]. right. split; [exact Z|now apply Cs].
    - destruct (str_eqb zda (lit "AT0")) eqn:Z.
      + left. apply str_eqb_eq in Z. split; [reflexivity|]. left. split; [exact Z|apply Ki; cbn; auto].
      + right. eexists. split; [reflexivity|]. apply str_eqb_neq in Z. apply (ff_provider w (Fields zda reg rid tim sa sb sc sd se tc ser ch) C1 So); [now apply Kt|].
        intros [(K & _)|(_ & K)]; rsimpl; [now apply Z|apply Cs in K; discriminate].
    - destruct (str_eqb zda (lit "AT0")) eqn:Z.
      + left. apply str_eqb_eq in Z. split; [reflexivity|]. left. split; [exact Z|apply Ki; cbn; auto].
      + right. eexists. split; [reflexivity|]. apply str_eqb_neq in Z. apply (ff_provider w (Fields zda reg rid tim sa sb sc sd se tc ser ch) C1 So); [now apply Kt|].
        intros [(K & _)|(_ & K)]; rsimpl; [now apply Z|apply Cs in K; discriminate].
    - destruct (str_eqb zda (lit "AT0")) eqn:Z.
      + left. apply str_eqb_eq in Z. split; [reflexivity|]. left. split; [exact Z|apply Ki; cbn; auto].
      + right. eexists. split; [reflexivity|]. apply str_eqb_neq in Z. apply (ff_provider w (Fields zda reg rid tim sa sb sc sd se tc ser ch) C1 So); [now apply Kt|].
        intros [(K & _)|(_ & K)]; rsimpl; [now apply Z|apply Cs in K; discriminate].
    - right. eexists. split; [reflexivity|]. apply (ff_serial w (Fields zda reg rid tim sa sb sc sd se tc ser ch) C1 So). rsimpl. intros K. now apply Kt in K. }
  2:{ rewrite Ek in M. cbn [bind] in M. injection M as <-. exact Fx. }
  rewrite Ek in M. cbn [bind] in M. clear chk Ek Kt Ki Cs.
  assert (e = MalformedReceipt rid /\ ~ tc_text tc) as [-> Nt].
  { destruct (negb (List.length tb =? 0)%nat && ((List.length tb <? 5)%nat || (16 <? List.length tb)%nat)) eqn:L; [|discriminate M].
    rewrite (isDummyTC_eq _ _ G) in M. cbn [bind] in M. destruct (str_eqb tb (lit "TRA")) eqn:TRA; [discriminate M|]. cbn [bind] in M.
    rewrite (isReversalTC_eq _ _ G) in M. cbn [bind] in M. destruct (str_eqb tb (lit "STO")) eqn:STO; [discriminate M|]. cbn [bind] in M. injection M as <-.
    split; [reflexivity|]. intros (b & Eb & X). rewrite G in Eb. apply Ok_inj in Eb. subst b. apply str_eqb_neq in TRA, STO. clear -X L TRA STO. lia || (destruct X as [X|[X|[X|X]]]; [lia|lia|now apply TRA|now apply STO]). }
  exact (ff_counter w (Fields zda reg rid tim sa sb sc sd se tc ser ch) C1 So Rp Nt).
Qed.

Lemma provider_known w f : right_provider w f -> known_serial w (f_serial f).
Proof. unfold right_provider, known_serial. tauto. Qed.

Lemma field_fun w f e e' : field_fault w f e -> field_fault w f e' -> e = e'.
Proof.
  intros F F'. destruct F, F'; try reflexivity; try (exfalso; congruence); exfalso; try tauto.
  all: match goal with H : right_provider _ _ |- _ => apply provider_known in H end; tauto.
Qed.

Lemma field_not_wf w f e : field_fault w f e -> ~ wf_fields w f.
Proof.
  intros F (R & _ & G & _ & Z & T & A & B & C & D & E & (tb & Tc) & Ch & S).
  assert (f_serial f <> []) as Ns.
  { destruct S as [(_ & (b & K & _ & X))|(_ & (b & K & _ & X))].
    - destruct b as [|c b]. { destruct K as [(x & K & _)|[(x & K & _)|(x & K & _)]]; discriminate K. } destruct X as [->|[->|(x & -> & _)]]; discriminate.
    - apply number_nonempty in K. destruct b as [|c b]; [congruence|]. destruct X as [->|[->|(x & -> & _)]]; discriminate. }
  assert (tc_text (f_tc f)) as Tc' by (exists tb; exact Tc).
  assert (sound_fields w f) as So. { unfold sound_fields. destruct Tc as [Tc _]. do 8 (split; [assumption|]). split; [eauto|]. auto. }
  destruct F as [F|F F0|F F0 F1|F F0 F1 F2|F F0 F1 F2]; try tauto.
  - apply F1. unfold known_serial. tauto.
  - exact (F2 S).
Qed.

Lemma mk_fault w f e : encodable (f_tc f) -> encodable (f_chain f) -> ~ In c_us (f_receipt f) -> ~ In c_us (f_register f) ->
  mk_of w f = Err e <-> field_fault w f e.
Proof.
  intros Et Ec Ni Nr. destruct (mk_diag w f Et Ec Ni Nr) as [(r & M)|(e' & M & F)].
  - rewrite M. split; [discriminate|]. intros F. exfalso. apply mk_receipt_spec in M as [W _]. exact (field_not_wf _ _ _ F W).
  - rewrite M. split; [intros E; now injection E as <-|]. intros F'. now rewrite (field_fun _ _ _ _ F F').
Qed.

(** ** The rest *)
Lemma b64url_err s id e : encodable s -> catch (b64url_decode_str s) b64_exn (MalformedReceipt id) = Err e -> e = MalformedReceipt id.
Proof.
  intros H H'. apply encodable_pad in H as [b Hb]. unfold catch, b64url_decode_str in H'. rewrite Hb in H'.
  cbn [bind] in H'. destruct (urlsafe_b64decode b) as [x|x] eqn:E; [discriminate|].
  eapply urlsafe_b64decode_utf8_err in E; [|exact Hb]. destruct E as [->| ->]; now injection H' as <-.
Qed.

Lemma b64url_text_err s id e : encodable s ->
  catch (do b <- b64url_decode_str s; utf8_decode b) b64_utf8_exn (MalformedReceipt id) = Err e -> e = MalformedReceipt id.
Proof.
  intros H H'. apply encodable_pad in H as [b Hb]. unfold catch, b64url_decode_str in H'. rewrite Hb in H'.
  cbn [bind] in H'. destruct (urlsafe_b64decode b) as [x|x] eqn:E; cbn [bind] in H'.
  - destruct (utf8_decode x) as [y|y] eqn:D; [discriminate|]. apply utf8_decode_err in D. subst. now injection H' as <-.
  - eapply urlsafe_b64decode_utf8_err in E; [|exact Hb]. destruct E as [->| ->]; now injection H' as <-.
Qed.

Lemma finish_fault w label alg f h sg : encodable (f_tc f) -> encodable (f_chain f) -> encodable sg ->
  ~ In c_us (f_receipt f) -> ~ In c_us (f_register f) -> ends_with_char c_eq sg = false ->
  forall e, finish_of w label alg f h sg = Err e <-> rest_fault w label f (exists b, seg_decodes sg b) e.
Proof.
  intros Et Ec Es Ni Nr Q e. unfold finish_of, finish_receipt. fold (mk_of w f).
  assert (nonempty (remove_char c_eq (f_tc f)) = true <-> has_counter f) as HC by apply remove_eq_spec.
  destruct (nonempty (remove_char c_eq (f_tc f))).
  2:{ assert (~ has_counter f) as NC by (intros X; apply HC in X; discriminate X). split.
      - intros E. injection E as <-. now apply rf_no_counter.
      - intros F. destruct F; tauto || reflexivity. }
  assert (has_counter f) as C by tauto. clear HC. pose proof (mk_fault w f) as MF.
  destruct (mk_of w f) as [r|x] eqn:M; cbn [bind].
  2:{ split.
      - intros E. injection E as ->. apply rf_fields; [exact C|]. apply MF; auto.
      - intros F. destruct F as [F|e F F0|F F0 F1|cb F F0 F1 F2 F3].
        + tauto.
        + apply MF in F0; auto. now injection F0 as ->.
        + exfalso. exact (field_not_wf _ _ _ (proj1 (MF x Et Ec Ni Nr) eq_refl) F0).
        + exfalso. exact (field_not_wf _ _ _ (proj1 (MF x Et Ec Ni Nr) eq_refl) F0). }
  clear MF. pose proof M as M'. apply mk_receipt_spec in M' as [W Ir]. assert (r_receiptId r = f_receipt f) as Id by (destruct Ir as [F _]; rewrite <- F || rewrite F; reflexivity).
  assert (exists b, b64decode (f_chain f) = Ok b) as (cb & Cb) by apply W. pose proof Cb as Cb'. apply b64decode_str_iff in Cb'.
  assert (forall x, rest_fault w label f (exists b, seg_decodes sg b) x -> x = MalformedReceipt (f_receipt f)) as Only.
  { intros x F. destruct F as [F|x F F0|F F0 F1|cb' F F0 F1 F2 F3]; try reflexivity; exfalso; [tauto|]. exact (field_not_wf _ _ _ F0 W). }
  unfold sign_receipt. rewrite Q. cbn [negb].
  destruct (catch (b64url_decode_str sg) b64_exn (MalformedReceipt (r_receiptId r))) as [gb|x] eqn:G; cbn [bind].
  2:{ assert (x = MalformedReceipt (f_receipt f)) as ->.
      { rewrite <- Id. exact (b64url_err _ _ _ Es G). }
      assert (~ exists b, seg_decodes sg b) as NS.
      { intros (b & _ & X). apply b64url_decode_str_iff in X. rewrite X in G. discriminate G. }
      split; [intros E; injection E as <-; now apply rf_signature|]. intros F. now rewrite (Only _ F). }
  apply catch_Ok, b64url_decode_str_iff in G. rewrite Cb'. cbn [bind].
  destruct (List.length cb =? r1_chainBytes)%nat eqn:L.
  - split; [discriminate|]. intros F. exfalso. apply Nat.eqb_eq in L. destruct F as [F|x F F0|F F0 F1|cb' F F0 F1 F2 F3].
    + tauto.
    + exact (field_not_wf _ _ _ F0 W).
    + apply F1. exists gb. split; assumption.
    + rewrite Cb in F2. apply Ok_inj in F2. subst cb'. now apply F3.
  - apply Nat.eqb_neq in L. split.
    + intros E. injection E as <-. cbn [r_receiptId]. rewrite Id. apply (rf_chain w label f _ cb); auto. exists gb. split; assumption.
    + intros F. cbn [r_receiptId]. now rewrite (Only _ F), Id.
Qed.

(** ** The form of texts *)
Lemma alg_stage w label alg zda : ~ In c_dash alg -> ~ In c_dash zda ->
  alg_and_zda w label (alg ++ [c_dash] ++ zda)
  = if re_match (algRegex w) alg then if known_alg alg then Ok (alg, zda) else Err (UnknownAlgorithm label) else Err (MalformedReceipt label).
Proof.
  intros A Z. unfold alg_and_zda. cbn [app]. rewrite split_char_app by exact A. rewrite split_char_nosep by exact Z. reflexivity.
Qed.

Lemma no_alg_stage w label s : (forall alg zda, s = alg ++ [c_dash] ++ zda -> ~ In c_dash alg -> In c_dash zda) ->
  alg_and_zda w label s = Err (MalformedReceipt label).
Proof.
  intros H. unfold alg_and_zda. pose proof (join_split c_dash s) as J. pose proof (split_char_no_sep c_dash s) as NS.
  destruct (split_char c_dash s) as [|a [|z [|]]]; try reflexivity. exfalso. cbn [join] in J.
  apply (Forall_inv (Forall_inv_tail NS)). apply (H a z); [now rewrite <- J|exact (Forall_inv NS)].
Qed.

Lemma alg_split s : (exists alg zda, s = alg ++ [c_dash] ++ zda /\ ~ In c_dash alg /\ ~ In c_dash zda)
  \/ (forall alg zda, s = alg ++ [c_dash] ++ zda -> ~ In c_dash alg -> In c_dash zda).
Proof.
  pose proof (join_split c_dash s) as J. pose proof (split_char_no_sep c_dash s) as NS.
  destruct (split_char c_dash s) as [|a [|z [|y l]]] eqn:S.
  1,2,4: right; intros alg zda -> A; destruct (in_dec N.eq_dec c_dash zda) as [I|I]; [exact I|exfalso];
    cbn [app] in S; rewrite split_char_app, split_char_nosep in S by assumption; discriminate S.
  left. exists a, z. cbn [join] in J. split; [now rewrite <- J|]. split; [exact (Forall_inv NS)|exact (Forall_inv (Forall_inv_tail NS))].
Qed.

Lemma known_R1 a : known_alg a = true <-> a = lit "R1".
Proof. unfold known_alg. apply str_eqb_eq. Qed.

(** What is done with the parts *)
Definition rest_of (w : world) (s h p sg : str) : result (receipt * str) :=
  match split_char c_us p with
  | [e; algzda; registerId; receiptId; dateTime; sumA; sumB; sumC; sumD; sumE;
     encTC; certSerial; previousChain] =>
      check negb (nonempty e) else MalformedReceipt s;
      do az <- alg_and_zda w s algzda;
      check str_eqb r1_jwsHeader h else AlgorithmMismatch s;
      finish_receipt w s (fst az) (snd az) registerId receiptId dateTime
        sumA sumB sumC sumD sumE encTC certSerial previousChain h sg
  | _ => Err (MalformedReceipt s)
  end.

Lemma seg_text s t id : catch (do b <- b64url_decode_str s; utf8_decode b) b64_utf8_exn id = Ok t <->
  exists b, urlsafe_b64decode (restoreb64padding s) = Ok b /\ utf8_encode t = Ok b.
Proof.
  split.
  - intros H. apply catch_Ok, bind_Ok in H as (b & B & U). apply b64url_decode_str_iff in B. exists b. split; [exact B|]. now apply utf8_encode_decode.
  - intros (b & B & U). apply b64url_decode_str_iff in B. rewrite B. cbn [bind]. rewrite (utf8_decode_encode _ _ U). reflexivity.
Qed.

Lemma jws_stage w s : encodable s ->
  (exists h p sg, jws_parts s h p sg /\ encodable p /\ encodable sg /\ fromJWSString w s = rest_of w s h p sg)
  \/ ((forall h p sg, ~ jws_parts s h p sg) /\ fromJWSString w s = Err (MalformedReceipt s)).
Proof.
  intros H. unfold fromJWSString.
  pose proof (encodable_split c_dot s) as Sp. pose proof (join_split c_dot s) as J. pose proof (split_char_no_sep c_dot s) as NS.
  assert (forall l, split_char c_dot s = l -> List.length l <> 3%nat -> forall h p sg, ~ jws_parts s h p sg) as Far.
  { intros l El L h p sg (x & y & hb & pb & -> & D & _ & Sx & _ & Sy & _).
    pose proof (seg_no_dot _ _ (proj2 Sx)) as N1. pose proof (seg_no_dot _ _ (proj2 Sy)) as N2.
    cbn [app] in El. rewrite !split_char_app in El by assumption. rewrite !split_char_nosep in El by assumption. subst l. now apply L. }
  destruct (split_char c_dot s) as [|s0 [|s1 [|s2 [|s3 l]]]] eqn:Ss; try (right; split; [|reflexivity]; eapply Far; [reflexivity|discriminate]).
  clear Far. assert (encodable s0 /\ encodable s1 /\ encodable s2) as (E0 & E1 & E2).
  { repeat split; apply Sp; auto; cbn [In]; tauto. }
  assert (forall h p sg, jws_parts s h p sg -> exists hb pb, ends_with_char c_eq s0 = false /\ ends_with_char c_eq s1 = false /\ ends_with_char c_eq s2 = false
    /\ urlsafe_b64decode (restoreb64padding s0) = Ok hb /\ utf8_encode h = Ok hb /\ urlsafe_b64decode (restoreb64padding s1) = Ok pb /\ utf8_encode p = Ok pb) as Parts.
  { intros h p sg (x & y & hb & pb & E & D & Q & Sx & Eh & Sy & Ep). exists hb, pb.
    pose proof (seg_no_dot _ _ (proj2 Sx)) as N1. pose proof (seg_no_dot _ _ (proj2 Sy)) as N2. clear J NS Sp. subst s.
    cbn [app] in Ss. rewrite !split_char_app in Ss by assumption. rewrite !split_char_nosep in Ss by assumption. injection Ss as <- <- <-.
    destruct Sx, Sy. auto 10. }
  destruct (ends_with_char c_eq s0 || ends_with_char c_eq s1 || ends_with_char c_eq s2) eqn:Q; cbn [negb].
  { right. split; [|reflexivity]. intros h p sg P. destruct (Parts _ _ _ P) as (? & ? & Q0 & Q1 & Q2 & _). rewrite Q0, Q1, Q2 in Q. discriminate Q. }
  apply orb_false_iff in Q as [Q Q2]. apply orb_false_iff in Q as [Q0 Q1].
  destruct (catch (do b <- b64url_decode_str s0; utf8_decode b) b64_utf8_exn (MalformedReceipt s)) as [h|x] eqn:Hh; cbn [bind].
  2:{ right. pose proof (b64url_text_err _ _ _ E0 Hh) as ->. split; [|reflexivity].
      intros h p sg P. destruct (Parts _ _ _ P) as (hb & pb & _ & _ & _ & X & Y & _).
      assert (exists b, urlsafe_b64decode (restoreb64padding s0) = Ok b /\ utf8_encode h = Ok b) as Z by eauto.
      apply (seg_text s0 h (MalformedReceipt s)) in Z. rewrite Z in Hh. discriminate Hh. }
  destruct (catch (do b <- b64url_decode_str s1; utf8_decode b) b64_utf8_exn (MalformedReceipt s)) as [p|x] eqn:Hp; cbn [bind].
  2:{ right. pose proof (b64url_text_err _ _ _ E1 Hp) as ->. split; [|reflexivity].
      intros h' p sg P. destruct (Parts _ _ _ P) as (hb & pb & _ & _ & _ & _ & _ & X & Y).
      assert (exists b, urlsafe_b64decode (restoreb64padding s1) = Ok b /\ utf8_encode p = Ok b) as Z by eauto.
      apply (seg_text s1 p (MalformedReceipt s)) in Z. rewrite Z in Hp. discriminate Hp. }
  left. exists h, p, s2. apply seg_text in Hh as (hb & Hb & Hu). apply seg_text in Hp as (pb & Pb & Pu).
  split. { exists s0, s1, hb, pb. cbn [join] in J. split; [now rewrite <- J|]. split; [exact (Forall_inv (Forall_inv_tail (Forall_inv_tail NS)))|].
    split; [exact Q2|]. split; [split; assumption|]. split; [exact Hu|]. split; [split; assumption|exact Pu]. }
  split; [now exists pb|]. split; [exact E2|reflexivity].
Qed.

Lemma payload_stage w s h p sg : encodable p ->
  (exists alg f, payload_parts p alg f /\ encodable (f_tc f) /\ encodable (f_chain f) /\ ~ In c_us (f_receipt f) /\ ~ In c_us (f_register f)
     /\ rest_of w s h p sg = if re_match (algRegex w) alg then if known_alg alg then if str_eqb r1_jwsHeader h then finish_of w s alg f h sg
        else Err (AlgorithmMismatch s) else Err (UnknownAlgorithm s) else Err (MalformedReceipt s))
  \/ ((forall alg f, ~ payload_parts p alg f) /\ rest_of w s h p sg = Err (MalformedReceipt s)).
Proof.
  intros Ep. unfold rest_of.
  pose proof (encodable_split c_us p) as Sp. pose proof (join_split c_us p) as J. pose proof (split_char_no_sep c_us p) as NS.
  assert (forall alg f, payload_parts p alg f -> split_char c_us p = elements alg f) as Parts.
  { intros alg f (-> & N & _). apply split_join; assumption || discriminate. }
  destruct (split_char c_us p) as [|p0 [|p1 [|p2 [|p3 [|p4 [|p5 [|p6 [|p7 [|p8 [|p9 [|p10 [|p11 [|p12 [|]]]]]]]]]]]]]] eqn:Ss;
    try (right; split; [|reflexivity]; intros alg f P; discriminate (Parts _ _ P)).
  assert (encodable p10 /\ encodable p12) as (E10 & E12). { split; apply Sp; auto; cbn [In]; tauto. }
  destruct p0 as [|c0 p0]; cbn [nonempty negb].
  2:{ right. split; [|reflexivity]. intros alg f P. discriminate (Parts _ _ P). }
  destruct (alg_split p1) as [(alg & zda & -> & A & Z)|Nz].
  - left. exists alg, (Fields zda p2 p3 p4 p5 p6 p7 p8 p9 p10 p11 p12). rsimpl.
    split. { split; [symmetry; exact J|]. split; [exact NS|]. split; assumption. }
    split; [exact E10|]. split; [exact E12|]. split; [exact (Forall_inv (Forall_inv_tail (Forall_inv_tail (Forall_inv_tail NS))))|].
    split; [exact (Forall_inv (Forall_inv_tail (Forall_inv_tail NS)))|].
    rewrite alg_stage by assumption. destruct (re_match (algRegex w) alg), (known_alg alg); reflexivity.
  - right. rewrite (no_alg_stage w s p1 Nz). split; [|reflexivity]. intros alg f P. pose proof (Parts _ _ P) as E. destruct P as (_ & _ & A & Z).
    injection E as E1 _ _ _ _ _ _ _ _ _ _ _. exact (Z (Nz alg (f_zda f) E1 A)).
Qed.

Theorem jws_diagnosis w s e : encodable s -> fromJWSString w s = Err e <-> text_fault w s e.
Proof.
  intros En. destruct (jws_stage w s En) as [(h & p & sg & P & Ep & Es & ->)|(Np & ->)].
  2:{ split; [intros E; injection E as <-; now apply tf_jws|]. intros F. destruct F; try reflexivity; exfalso; eapply Np; eassumption. }
  destruct (payload_stage w s h p sg Ep) as [(alg & f & Pp & Et & Ec & Ni & Nr & ->)|(Np & ->)].
  2:{ split; [intros E; injection E as <-; now apply (tf_payload w s h p sg)|].
      intros F. destruct F as [F|h' p' sg' F F0|h' p' sg' alg f F F0 F1|h' p' sg' alg f F F0 F1 F2|h' p' sg' f F F0 F1|p' sg' f e F F0 F1]; try reflexivity; exfalso;
        destruct (parts_fun _ _ _ _ _ _ _ P F) as (_ & <- & _); eapply Np; eassumption. }
  assert (ends_with_char c_eq sg = false) as Q by (destruct P as (? & ? & ? & ? & _ & _ & Q & _); exact Q).
  assert (forall e, text_fault w s e -> (~ alg_text w alg /\ e = MalformedReceipt s) \/ (alg_text w alg /\ alg <> lit "R1" /\ e = UnknownAlgorithm s)
    \/ (alg = lit "R1" /\ h <> es256_header /\ e = AlgorithmMismatch s) \/ (alg = lit "R1" /\ h = es256_header /\ rest_fault w s f (exists b, seg_decodes sg b) e)) as Inv.
  { clear e. intros e F. destruct F as [F|h' p' sg' F F0|h' p' sg' alg' f' F F0 F1|h' p' sg' alg' f' F F0 F1 F2|h' p' sg' f' F F0 F1|p' sg' f' e F F0 F1].
    { exfalso. exact (F _ _ _ P). }
    all: destruct (parts_fun _ _ _ _ _ _ _ P F) as (-> & <- & <-).
    { exfalso. exact (F0 _ _ Pp). }
    all: destruct (payload_fun _ _ _ _ _ Pp F0) as (-> & <-); tauto. }
  assert (alg_text w (lit "R1")) as A1. { exists 49, [], []. split; [reflexivity|]. split; [now left|]. split; [unfold digit19; lia|constructor]. }
  pose proof (alg_spec w alg) as As. destruct (re_match (algRegex w) alg).
  2:{ assert (~ alg_text w alg) as Na by (intros X; apply As in X; discriminate X).
      split; [intros E; injection E as <-; exact (tf_alg w s h p sg alg f P Pp Na)|]. intros F. destruct (Inv _ F) as [(_ & ->)|[(X & _)|[(-> & _)|(-> & _)]]]; tauto. }
  assert (alg_text w alg) as Aa by tauto. pose proof (known_R1 alg) as K. destruct (known_alg alg).
  2:{ assert (alg <> lit "R1") as Na by (intros X; apply K in X; discriminate X).
      split; [intros E; injection E as <-; exact (tf_unknown w s h p sg alg f P Pp Aa Na)|]. intros F. destruct (Inv _ F) as [(X & ->)|[(_ & _ & ->)|[(-> & _)|(-> & _)]]]; tauto. }
  assert (alg = lit "R1") as -> by tauto. destruct (str_eqb r1_jwsHeader h) eqn:Hh.
  2:{ assert (h <> es256_header) as Nh by (intros ->; apply str_eqb_neq in Hh; now apply Hh).
      split; [intros E; injection E as <-; exact (tf_header w s h p sg f P Pp Nh)|]. intros F. destruct (Inv _ F) as [(X & ->)|[(_ & X & _)|[(_ & _ & ->)|(_ & -> & _)]]]; tauto. }
  apply str_eqb_eq in Hh. assert (h = es256_header) as -> by (now rewrite <- Hh).
  rewrite (finish_fault w s (lit "R1") f es256_header sg Et Ec Es Ni Nr Q e). split.
  - intros F. exact (tf_rest w s p sg f e P Pp F).
  - intros F. destruct (Inv _ F) as [(X & _)|[(_ & X & _)|[(_ & X & _)|(_ & _ & X)]]]; tauto.
Qed.

(** ** QR codes *)
Lemma code_fun s alg f g alg' f' g' : code_parts s alg f g -> code_parts s alg' f' g' -> alg = alg' /\ f = f' /\ g = g'.
Proof.
  intros (E & N & D & Z) (E' & N' & D' & Z').
  assert (split_char c_us (join [c_us] (elements alg f ++ [g])) = split_char c_us (join [c_us] (elements alg' f' ++ [g']))) as S by congruence.
  rewrite !split_join in S by (assumption || discriminate). unfold elements in S. cbn [app] in S. injection S as S1 S2 S3 S4 S5 S6 S7 S8 S9 S10 S11 S12 S13.
  cbn [app] in S1. assert (split_char c_dash (alg ++ c_dash :: f_zda f) = split_char c_dash (alg' ++ c_dash :: f_zda f')) as S by (now rewrite S1).
  rewrite !split_char_app in S by assumption. rewrite !split_char_nosep in S by assumption. injection S as <- S14.
  split; [reflexivity|]. split; [|exact S13]. destruct f, f'. rsimpl. now subst.
Qed.

Lemma code_stage w s : encodable s ->
  (exists alg f g, code_parts s alg f g /\ encodable (f_tc f) /\ encodable (f_chain f) /\ encodable g /\ ~ In c_us (f_receipt f) /\ ~ In c_us (f_register f)
     /\ fromBasicCode w s = if re_match (algRegex w) alg then if known_alg alg then
          do sig <- catch (b64decode_str g) b64_exn (MalformedReceipt s); finish_of w s alg f r1_jwsHeader (b64url_nopad sig)
        else Err (UnknownAlgorithm s) else Err (MalformedReceipt s))
  \/ ((forall alg f g, ~ code_parts s alg f g) /\ fromBasicCode w s = Err (MalformedReceipt s)).
Proof.
  intros En. unfold fromBasicCode.
  pose proof (encodable_split c_us s) as Sp. pose proof (join_split c_us s) as J. pose proof (split_char_no_sep c_us s) as NS.
  assert (forall alg f g, code_parts s alg f g -> split_char c_us s = elements alg f ++ [g]) as Parts.
  { intros alg f g (-> & N & _). apply split_join; assumption || discriminate. }
  destruct (split_char c_us s) as [|p0 [|p1 [|p2 [|p3 [|p4 [|p5 [|p6 [|p7 [|p8 [|p9 [|p10 [|p11 [|p12 [|p13 [|]]]]]]]]]]]]]]] eqn:Ss;
    try (right; split; [|reflexivity]; intros alg f g P; discriminate (Parts _ _ _ P)).
  assert (encodable p10 /\ encodable p12 /\ encodable p13) as (E10 & E12 & E13). { repeat split; apply Sp; auto; cbn [In]; tauto. }
  destruct p0 as [|c0 p0]; cbn [nonempty negb].
  2:{ right. split; [|reflexivity]. intros alg f g P. discriminate (Parts _ _ _ P). }
  destruct (alg_split p1) as [(alg & zda & -> & A & Z)|Nz].
  - left. exists alg, (Fields zda p2 p3 p4 p5 p6 p7 p8 p9 p10 p11 p12), p13. rsimpl.
    split. { split; [symmetry; exact J|]. split; [exact NS|]. split; assumption. }
    split; [exact E10|]. split; [exact E12|]. split; [exact E13|]. split; [exact (Forall_inv (Forall_inv_tail (Forall_inv_tail (Forall_inv_tail NS))))|].
    split; [exact (Forall_inv (Forall_inv_tail (Forall_inv_tail NS)))|].
    rewrite alg_stage by assumption. destruct (re_match (algRegex w) alg), (known_alg alg); reflexivity.
  - right. rewrite (no_alg_stage w s p1 Nz). split; [|reflexivity]. intros alg f g P. pose proof (Parts _ _ _ P) as E. destruct P as (_ & _ & A & Z).
    injection E as E1 _ _ _ _ _ _ _ _ _ _ _ _. exact (Z (Nz alg (f_zda f) E1 A)).
Qed.

Lemma rest_iff w label f P Q e : (P <-> Q) -> rest_fault w label f P e -> rest_fault w label f Q e.
Proof.
  intros I F. destruct F as [F|e F F0|F F0 F1|cb F F0 F1 F2 F3].
  - now apply rf_no_counter.
  - now apply rf_fields.
  - apply rf_signature; tauto.
  - apply (rf_chain w label f Q cb); tauto.
Qed.

Theorem qr_diagnosis w s e : encodable s -> fromBasicCode w s = Err e <-> code_fault w s e.
Proof.
  intros En. destruct (code_stage w s En) as [(alg & f & g & Pp & Et & Ec & Eg & Ni & Nr & ->)|(Np & ->)].
  2:{ split; [intros E; injection E as <-; now apply cf_code|]. intros F. destruct F; try reflexivity; exfalso; eapply Np; eassumption. }
  assert (forall e, code_fault w s e -> (~ alg_text w alg /\ e = MalformedReceipt s) \/ (alg_text w alg /\ alg <> lit "R1" /\ e = UnknownAlgorithm s)
    \/ (alg = lit "R1" /\ (forall b, b64decode g <> Ok b) /\ e = MalformedReceipt s)
    \/ (alg = lit "R1" /\ (exists b, b64decode g = Ok b) /\ rest_fault w s f True e)) as Inv.
  { clear e. intros e F. destruct F as [F|alg' f' g' F F0|alg' f' g' F F0 F1|f' g' F F0|f' g' b e F F0 F1].
    { exfalso. exact (F _ _ _ Pp). }
    all: destruct (code_fun _ _ _ _ _ _ _ Pp F) as (-> & <- & <-); eauto 10. }
  assert (alg_text w (lit "R1")) as A1. { exists 49, [], []. split; [reflexivity|]. split; [now left|]. split; [unfold digit19; lia|constructor]. }
  pose proof (alg_spec w alg) as As. destruct (re_match (algRegex w) alg).
  2:{ assert (~ alg_text w alg) as Na by (intros X; apply As in X; discriminate X).
      split; [intros E; injection E as <-; exact (cf_alg w s alg f g Pp Na)|]. intros F. destruct (Inv _ F) as [(_ & ->)|[(X & _)|[(-> & _)|(-> & _)]]]; tauto. }
  assert (alg_text w alg) as Aa by tauto. pose proof (known_R1 alg) as K. destruct (known_alg alg).
  2:{ assert (alg <> lit "R1") as Na by (intros X; apply K in X; discriminate X).
      split; [intros E; injection E as <-; exact (cf_unknown w s alg f g Pp Aa Na)|]. intros F. destruct (Inv _ F) as [(X & ->)|[(_ & _ & ->)|[(-> & _)|(-> & _)]]]; tauto. }
  assert (alg = lit "R1") as -> by tauto.
  destruct (catch (b64decode_str g) b64_exn (MalformedReceipt s)) as [b|x] eqn:Hg; cbn [bind].
  2:{ pose proof (malformed_b64 g s x Eg Hg) as ->.
      assert (forall b, b64decode g <> Ok b) as Ng. { intros b X. apply b64decode_str_iff in X. rewrite X in Hg. discriminate Hg. }
      split; [intros E; injection E as <-; exact (cf_signature w s f g Pp Ng)|].
      intros F. destruct (Inv _ F) as [(X & ->)|[(_ & X & _)|[(_ & _ & ->)|(_ & (b & X) & _)]]]; try tauto. exfalso. exact (Ng _ X). }
  apply catch_Ok, b64decode_str_iff in Hg.
  assert (exists x, seg_decodes (b64url_nopad b) x) as Sd. { exists b. apply seg_nopad. now apply b64decode_bytes in Hg. }
  assert (encodable (b64url_nopad b)) as Eb by apply encodable_ascii, b64url_nopad_ascii.
  assert (ends_with_char c_eq (b64url_nopad b) = false) as Q by (destruct Sd as (x & Q & _); exact Q).
  rewrite (finish_fault w s (lit "R1") f r1_jwsHeader _ Et Ec Eb Ni Nr Q e). split.
  - intros F. apply (cf_rest w s f g b e Pp Hg). now apply (rest_iff _ _ _ (exists x, seg_decodes (b64url_nopad b) x)).
  - intros F. destruct (Inv _ F) as [(X & _)|[(_ & X & _)|[(_ & X & _)|(_ & _ & X)]]]; [tauto|tauto|exfalso; exact (X _ Hg)|].
    revert X. now apply rest_iff.
Qed.
