(** What the graphical program does with receipts and its key store. *)
From Coq Require Import Lia.
From Verif Require Import PyBase World Codec Algo Receipt Json Pem KeyStore VerifyReceipt Url StateCli ReceiptCli Gui
  ListFacts CodecFacts CodecFacts2 SpecReceipt ReceiptFacts RoundTrip RoundTrip2 SpecDep VerifyFacts SpecKeys KeyFacts SpecKeyFile KeyFileFacts
  KeyStoreCli SpecKeyStoreCli KeyStoreCliFacts SpecReceiptCli ReceiptCliFacts SpecGui GuiFacts.
Open Scope N_scope.
Open Scope py_scope.

(** ** Receipts *)

Lemma verify_same w v r p x : verify w v r p = Ok x -> x = (r, p) /\ known_alg p = true.
Proof.
  unfold verify. destruct (known_alg p) eqn:K; [|discriminate]. cbn [negb]. intros H. split; [|reflexivity]. revert H.
  repeat match goal with
  | |- context [bind ?m _] => destruct m; cbn [bind]; try discriminate
  | |- context [if ?b then _ else _] => destruct b; try discriminate
  | |- context [match ?m with Ok _ => _ | Err _ => _ end] => destruct m; try discriminate
  | |- context [match ?m with Some _ => _ | None => _ end] => destruct m; try discriminate
  end; intros H; now apply Ok_inj in H.
Qed.

Lemma bind_tt {A} (m : result A) : (do _x <- m; Ok tt) = Ok tt <-> exists a, m = Ok a.
Proof. destruct m; cbn [bind]; split; intros H; eauto; [discriminate|destruct H; discriminate]. Qed.

Theorem view_verify w py fetch ks f s : f <> F_csv ->
  (exists rp, view_receipt w py fetch f s = Some (Done rp) /\ verify_receipt_task w ks rp = Done tt)
  <-> verify_text w py fetch (fromKeyStore ks) f s = Ok tt.
Proof.
  intros N. assert (forall m caught, (exists rp, Some (show caught m) = Some (Done rp) /\ verify_receipt_task w ks rp = Done tt)
    <-> exists rp, m = Ok rp /\ exists x, verify w (fromKeyStore ks) (fst rp) (snd rp) = Ok x) as S.
  { intros m caught. split; intros (rp & A & B); exists rp.
    - apply Some_inj in A. apply show_Done in A. split; [exact A|]. unfold verify_receipt_task in B. apply show_Done in B. now apply bind_tt in B.
    - split; [f_equal; now apply show_Done|]. unfold verify_receipt_task. apply show_Done. now apply bind_tt. }
  assert (forall m, (exists rp, m = Ok rp /\ exists x, verify w (fromKeyStore ks) (fst rp) (snd rp) = Ok x)
    <-> (do rp <- m; do _x <- verify w (fromKeyStore ks) (fst rp) (snd rp); Ok tt) = Ok tt) as T.
  { intros m. destruct m as [rp|e]; cbn [bind].
    - rewrite bind_tt. split; [intros (rp' & A & B); apply Ok_inj in A; now subst|intros B; exists rp; now split].
    - split; [intros (rp & A & _); discriminate A|discriminate]. }
  destruct f; [| | | |congruence]; try (rewrite verify_read by discriminate; cbn [view_receipt read_receipt]; rewrite S; apply T).
  cbn [view_receipt verify_text]. rewrite S. unfold getAndVerifyReceiptURL, verifyBasicCode. destruct (fetch s) as [code|e]; cbn [bind].
  2: { split; [intros (rp & A & _); discriminate A|discriminate]. }
  destruct (fromBasicCode w code) as [[r p]|e]; cbn [bind fst snd].
  2: { split; [intros (rp & A & _); discriminate A|discriminate]. }
  split.
  - intros (rp & A & x & B). destruct (known_alg p) eqn:K; [|discriminate A]. cbn [negb] in A.
    destruct (verifyURLHashOpt w r p (getURLHashFromURL s)) as [[]|e] eqn:H; cbn [bind] in A; [|discriminate A].
    apply Ok_inj in A. subst rp. cbn [fst snd] in B. rewrite B. destruct (verify_same _ _ _ _ _ B) as [-> _]. cbn [bind fst snd]. exact H.
  - intros A. destruct (verify w (fromKeyStore ks) r p) as [x|e] eqn:V; cbn [bind] in A; [|discriminate A].
    destruct (verify_same _ _ _ _ _ V) as [-> K]. cbn [fst snd] in A. exists (r, p). rewrite K. cbn [negb]. rewrite A. cbn [bind fst snd].
    split; [reflexivity|]. exists (r, p). exact V.
Qed.

Lemma receipt_exn_caught e : receipt_exn e -> receipt_exception e = true.
Proof. intros (x & R). decompose [or] R; subst; reflexivity. Qed.

(** Receipts in JWS and QR format *)
Theorem view_ends w py fetch f s : plain_format f -> f <> F_csv -> encodable s ->
  exists v, view_receipt w py fetch f s = Some v /\ ends v
    /\ forall rp ks, v = Done rp -> ends (verify_receipt_task w ks rp).
Proof.
  intros P N E. assert (exists c, view_receipt w py fetch f s = Some (show c (read_receipt w py fetch f s)) /\ forall e, receipt_exception e = true -> c e = true) as (c & -> & C).
  { destruct f; cbn [plain_format] in P; try contradiction; try congruence; eexists; (split; [reflexivity|]); intros e H; cbn beta; now rewrite H. }
  eexists. split; [reflexivity|]. split.
  - intros e H. destruct (read_receipt w py fetch f s) as [rp|e'] eqn:R; [discriminate H|]. cbn [show] in H.
    rewrite (C e') in H; [discriminate H|]. apply receipt_exn_caught. now apply (read_clean w py fetch f s e' P E).
  - intros rp ks H e L. apply show_Done in H. unfold verify_receipt_task in L.
    destruct (verify_line w py fetch ks f s P E) as [(_ & V)|(_ & e' & V & X)]; rewrite verify_read in V by (destruct f; cbn in P; congruence || contradiction); rewrite H in V; cbn [bind] in V;
      rewrite V in L; cbn [show] in L; [discriminate L|rewrite X in L; discriminate L].
Qed.

(** ** Key store *)

Theorem import_exact w ks file :
  (forall ks', import_store w ks file = (ks', Done tt) <-> readStoreFromJson w (load file) = Ok ks')
  /\ ((forall ks', readStoreFromJson w (load file) <> Ok ks') ->
      import_store w ks file = (ks, Lost KeyStoreError)
      \/ import_store w ks file = (ks, Lost PyIndexError) /\ exists m v, file_entries (load file) m /\ In ([], v) m).
Proof.
  unfold import_store. destruct (readStoreFromJson w (load file)) as [ks'|e] eqn:R.
  - split; [|intros H; now elim (H ks')]. intros ks2. split; intros H; [injection H as <-; reflexivity|apply Ok_inj in H; now subst].
  - split; [intros ks2; split; [destruct (_ || _); discriminate|discriminate]|]. intros _.
    destruct (read_file_err w _ _ R) as [->|[-> X]]; [left|right]; cbn; [reflexivity|now split].
Qed.

Lemma read_store_ok w j ks : readStoreFromJson w j = Ok ks -> Forall (read_ok w) ks /\ NoDup (map fst ks).
Proof.
  unfold readStoreFromJson. destruct j as [| | | | | |d]; try discriminate. destruct (dict_get d k_map) as [[| | | | | |m]|]; try discriminate.
  intros H. now apply (read_entries_ok w m [] ks H); constructor.
Qed.

Lemma act_ok w a ks : loaded_button w a -> Forall (read_ok w) ks -> NoDup (map fst ks) ->
  Forall (read_ok w) (fst (store_act w ks a)) /\ NoDup (map fst (fst (store_act w ks a))).
Proof.
  intros B F N. destruct a as [file|pem|i pem|c|i]; cbn [store_act fst].
  - unfold import_store. destruct (readStoreFromJson w (load file)) as [ks'|e] eqn:R; cbn [fst]; [now apply (read_store_ok w _ _ R)|now split].
  - unfold add_pem_cert, putPEMCert. destruct (loadCert w pem) as [c|e] eqn:L; cbn [bind fst]; [|now split].
    split; [|now apply nodup_set]. apply set_Forall; [exact F|]. unfold read_ok. cbn [fst snd kt_cert kt_key].
    split; [unfold numSerialToKeyId; eauto|]. split; [reflexivity|]. now apply load_Ok_cert in L.
  - unfold add_pem_key, putPEMKey. destruct (loadPubKey w pem) as [k|e] eqn:L; cbn [bind fst]; [|now split].
    split; [|now apply nodup_set]. apply set_Forall; [exact F|]. unfold read_ok. cbn [fst snd kt_cert kt_key]. now apply load_Ok_key in L.
  - unfold add_cert, putKey. split; [|now apply nodup_set]. apply set_Forall; [exact F|]. unfold read_ok. cbn [fst snd kt_cert kt_key].
    split; [unfold numSerialToKeyId; eauto|]. split; [reflexivity|exact B].
  - unfold del_key, delKey. split; [now apply del_Forall|now apply nodup_del].
Qed.

Lemma acts_ok w l : forall ks, Forall (loaded_button w) l -> Forall (read_ok w) ks -> NoDup (map fst ks) ->
  Forall (read_ok w) (store_acts w ks l) /\ NoDup (map fst (store_acts w ks l)).
Proof.
  induction l as [|a l IH]; intros ks B F N; cbn [store_acts fold_left]; [now split|].
  inversion B as [|? ? B1 B2]; subst. destruct (act_ok w a ks B1 F N) as [F' N']. now apply IH.
Qed.

Theorem export_import w l ks : pem_ok w -> Forall (loaded_button w) l -> signless (store_acts w [] l) ->
  import_store w ks (export_store w (store_acts w [] l)) = (store_acts w [] l, Done tt)
  /\ loadKeyFromJson (load (export_store w (store_acts w [] l))) = Ok None.
Proof.
  intros P B S. destruct (acts_ok w l [] B) as [F N]; [constructor|constructor|].
  destruct (written_opens w _ None P F N S) as [R K]; [discriminate|]. split; [now apply import_exact|exact K].
Qed.

(** What the actions do to the entry of an ID *)
Theorem act_found w ks a ks' : NoDup (map fst ks) -> store_act w ks a = (ks', Done tt) ->
  match a with
  | A_import file => readStoreFromJson w (load file) = Ok ks'
  | A_cert pem => exists c, loadCert w pem = Ok c /\ forall i, found_at ks' i = if str_eqb (serial_text w c) i then (Some (w_cert_pubkey w c), Some c) else found_at ks i
  | A_key j pem => exists k, loadPubKey w pem = Ok k /\ forall i, found_at ks' i = if str_eqb j i then (Some k, None) else found_at ks i
  | A_button c => forall i, found_at ks' i = if str_eqb (serial_text w c) i then (Some (w_cert_pubkey w c), Some c) else found_at ks i
  | A_delete j => forall i, found_at ks' i = if str_eqb j i then (None, None) else found_at ks i
  end.
Proof.
  intros N. assert (forall j kt i, found_at (dict_set ks j kt) i = if str_eqb j i then (Some (kt_key kt), kt_cert kt) else found_at ks i) as G.
  { intros j kt i. unfold found_at, getKey, getCert. rewrite get_set. now destruct (str_eqb j i). }
  destruct a as [file|pem|j pem|c|j]; cbn [store_act].
  - intros H. now apply import_exact in H.
  - unfold add_pem_cert, putPEMCert. destruct (loadCert w pem) as [c|e]; cbn [bind]; [|now destruct (value_error e)].
    intros H. injection H as <-. exists c. split; [reflexivity|]. intros i. apply G.
  - unfold add_pem_key, putPEMKey. destruct (loadPubKey w pem) as [k|e]; cbn [bind]; [|now destruct (value_error e)].
    intros H. injection H as <-. exists k. split; [reflexivity|]. intros i. apply G.
  - intros H. injection H as <-. intros i. apply G.
  - intros H. injection H as <-. intros i. unfold del_key, delKey, found_at, getKey, getCert. rewrite get_del by exact N. now destruct (str_eqb j i).
Qed.

(** Only imports do not end. *)
Theorem act_ends w ks a : (forall file, a <> A_import file) -> ends (snd (store_act w ks a))
  /\ forall e, snd (store_act w ks a) = Displayed e -> fst (store_act w ks a) = ks.
Proof.
  intros N. destruct a as [file|pem|j pem|c|j]; [now elim (N file)|..]; cbn [store_act].
  - unfold add_pem_cert, putPEMCert, loadCert. destruct (utf8_encode pem) as [b|e] eqn:U; cbn [bind].
    + destruct (w_load_cert w b); cbn [bind]; (split; [intros e H; discriminate H|intros e H; (discriminate H || reflexivity)]).
    + apply utf8_encode_err in U. subst. split; [intros e H; discriminate H|reflexivity].
  - unfold add_pem_key, putPEMKey, loadPubKey. destruct (utf8_encode pem) as [b|e] eqn:U; cbn [bind].
    + destruct (w_load_pubkey w b); cbn [bind]; (split; [intros e H; discriminate H|intros e H; (discriminate H || reflexivity)]).
    + apply utf8_encode_err in U. subst. split; [intros e H; discriminate H|reflexivity].
  - split; [intros e H; discriminate H|intros e H; discriminate H].
  - split; [intros e H; discriminate H|intros e H; discriminate H].
Qed.
