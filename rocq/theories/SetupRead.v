(** Tests whose key store cannot be read again. *)
From Verif Require Import PyBase World Codec ListFacts Json Pem KeyStore State DepParser RunTest CashReg TestVerify TestSetup
  ExampleWorld ExampleDep ExamplePool ExampleRunTest ExampleTestVerify ExampleSetup.
Open Scope N_scope.
Open Scope py_scope.

(** Exceptions of no class of the library *)
Definition classless {A} (r : result A) : Prop := forall e, r = Err e -> classes e = [].
Lemma classless_bind {A B} (r : result A) (f : A -> result B) : classless r -> (forall x, classless (f x)) -> classless (bind r f).
Proof. intros H F e E. destruct r as [x|x]; cbn [bind] in E; [now apply (F x)|]. apply H. injection E as ->. reflexivity. Qed.
Lemma classless_utf8 s : classless (utf8_encode s).
Proof.
  induction s as [|c s IH]; intros e E; [discriminate E|]. cbn [utf8_encode] in E. destruct (utf8_char c); [|injection E as <-; reflexivity].
  destruct (utf8_encode s) as [bs|x]; [discriminate E|]. injection E as ->. now apply IH.
Qed.
Lemma classless_cert w s : classless (loadCert w s).
Proof. apply classless_bind; [apply classless_utf8|]. intros b e E. destruct (w_load_cert w b); [discriminate E|]. injection E as <-. reflexivity. Qed.
Lemma classless_key w s : classless (loadPubKey w s).
Proof. apply classless_bind; [apply classless_utf8|]. intros b e E. destruct (w_load_pubkey w b); [discriminate E|]. injection E as <-. reflexivity. Qed.
Lemma classless_catch {A} (r : result A) p : classless r -> classless (catch r p KeyStoreError).
Proof. intros H e E. unfold catch in E. destruct r as [x|x]; [discriminate E|]. destruct (p x); [injection E as <-; reflexivity|]. apply H. injection E as ->. reflexivity. Qed.
Lemma classless_entry w ks i v : classless (read_entry w ks i v).
Proof.
  unfold read_entry. destruct v as [| | | | | |d]; try (intros e E; injection E as <-; reflexivity).
  destruct (dict_get d k_id) as [jid|]; [|intros e E; injection E as <-; reflexivity]. destruct (dict_get d k_type) as [jty|]; [|intros e E; injection E as <-; reflexivity].
  destruct (dict_get d k_pem) as [cp|]; [|intros e E; injection E as <-; reflexivity]. destruct jid as [| | | |inner| |]; try (intros e E; injection E as <-; reflexivity).
  destruct (str_eqb i inner); [|intros e E; injection E as <-; reflexivity]. destruct jty as [| | | |ty| |]; try (intros e E; injection E as <-; reflexivity).
  destruct (str_eqb ty v_cert_type).
  - apply classless_bind; [intros e E; unfold strSerialToKeyIds in E; destruct i; [injection E as <-; reflexivity|discriminate E]|]. intros ids. destruct ids as [|j ids]; [intros e E; injection E as <-; reflexivity|].
    apply classless_bind; [|intros c e E; discriminate E]. destruct cp as [| | | |s| |]; try (intros e E; injection E as <-; reflexivity). apply classless_catch, classless_cert.
  - destruct (str_eqb ty v_key_type); [|intros e E; injection E as <-; reflexivity].
    apply classless_bind; [|intros c e E; discriminate E]. destruct cp as [| | | |s| |]; try (intros e E; injection E as <-; reflexivity). apply classless_catch, classless_key.
Qed.
Lemma classless_store w j : classless (readStoreFromJson w j).
Proof.
  unfold readStoreFromJson. destruct j as [| | | | | |d]; try (intros e E; injection E as <-; reflexivity).
  destruct (dict_get d k_map) as [[| | | | | |m]|]; try (intros e E; injection E as <-; reflexivity).
  generalize (@nil (str * key_tuple)). induction m as [|[i v] m IH]; intros ks; cbn [read_entries]; [intros e E; discriminate E|].
  apply classless_bind; [apply classless_entry|]. intros ks'. apply IH.
Qed.

Theorem unreadable w m say sch random x b sp pub priv closed deps cc e :
  runTest_full w m sp (repeat (pub, priv) (Z.to_nat (ts_number sp))) closed None = Ok (deps, cc) -> readStoreFromJson w cc = Err e ->
  testVerify_full w m say sch random x b sp pub priv closed = Ok (R_ERROR, Some (say e)).
Proof.
  intros R E. unfold testVerify_full. rewrite R. assert (exists key, loadB64Key (ts_aes sp) = Ok key) as (key & K).
  { unfold runTest_full in R. destruct (_ =? _)%Z; [|discriminate R]. apply bind_Ok in R as (key & K & _). eauto. }
  unfold verify_made. rewrite K, E. unfold conclude. rewrite (classless_store w cc e E). cbn [bind fst snd res_eqb shown]. rewrite str_eqb_refl. reflexivity.
Qed.

(** Public keys are written in a way that cannot be read. *)
Definition mute_world : world := {|
  u_decimal := u_decimal toy_world; u_isdigit := u_isdigit toy_world; u_isalnum := u_isalnum toy_world; u_isspace := u_isspace toy_world;
  u_upper := u_upper toy_world; u_lower := u_lower toy_world; w_sha256 := w_sha256 toy_world; w_aes := w_aes toy_world;
  w_es256_verify := w_es256_verify toy_world; w_es256_sign := w_es256_sign toy_world; w_load_cert := w_load_cert toy_world; w_load_pubkey := w_load_pubkey toy_world;
  w_serial := w_serial toy_world; w_cert_pubkey := w_cert_pubkey toy_world; w_cert_signed_by := w_cert_signed_by toy_world;
  w_cert_pem := w_cert_pem toy_world; w_pubkey_pem := fun _ => [] |}.
Lemma ex_mute : exists deps cc, runTest_full mute_world toy_maker ex_sp_closed (repeat (ex_pub, ex_prv) 2) true None = Ok (deps, cc)
  /\ readStoreFromJson mute_world cc = Err KeyStoreError.
Proof.
  destruct (runTest_full mute_world toy_maker ex_sp_closed (repeat (ex_pub, ex_prv) 2) true None) as [[deps cc]|e] eqn:E.
  - exists deps, cc. split; [reflexivity|].
    assert (match runTest_full mute_world toy_maker ex_sp_closed (repeat (ex_pub, ex_prv) 2) true None with Ok r => readStoreFromJson mute_world (snd r) | Err e => Ok [] end = Err KeyStoreError) as H by (vm_compute; reflexivity).
    rewrite E in H. exact H.
  - exfalso. assert (match runTest_full mute_world toy_maker ex_sp_closed (repeat (ex_pub, ex_prv) 2) true None with Ok r => true | Err e => false end = true) as H by (vm_compute; reflexivity).
    rewrite E in H. discriminate H.
Qed.
