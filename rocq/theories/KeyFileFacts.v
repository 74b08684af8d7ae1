(** Reading key store files. *)
From Coq Require Import Lia ZifyClasses ZifyN ZifyNat ZifyBool.
From Verif Require Import PyBase ListFacts World Codec CodecFacts2 Json Pem KeyStore SpecKeys SpecKeyFile IntFacts PemFacts KeyFacts.
Open Scope N_scope.
Open Scope py_scope.

Lemma cert_id_spec w name i : cert_id w name i <-> exists ids, strSerialToKeyIds w name = Ok (i :: ids).
Proof.
  unfold cert_id, strSerialToKeyIds. destruct name as [|c r]; [split; [intros (b & z & N & _); now destruct N|intros (ids & H); discriminate]|].
  assert (forall b, c :: r = c_dash :: b \/ c :: r = b /\ hd_error (c :: r) <> Some c_dash <-> b = if c =? c_dash then r else c :: r) as B.
  { intros b. unfold c_dash. destruct (c =? 45) eqn:E.
    - apply N.eqb_eq in E. subst c. split; [intros [H|[_ H]]; [now injection H as ->|now destruct H]|]. intros ->. now left.
    - split; [intros [H|[H _]]; [injection H as -> _; discriminate|now symmetry]|]. intros ->. right. split; [reflexivity|].
      cbn [hd_error]. intros H. apply Some_inj in H. subst c. discriminate. }
  cbv zeta. set (s := if c =? c_dash then r else c :: r) in *. split.
  - intros (b & z & _ & H & L & ->). apply B in H. subst b. apply (py_int_spec w 16 s z ltac:(lia)) in L. rewrite L. cbn [app]. eauto.
  - intros (ids & H). apply Ok_inj in H. destruct (py_int w 16 s) as [z|] eqn:P.
    + cbn [app] in H. injection H as <- _. exists s, z. split; [discriminate|]. split; [now apply B|]. split; [|reflexivity]. now apply (py_int_spec w 16 s z ltac:(lia)).
    + exfalso. destruct (py_int w 10 s) as [z|] eqn:P'; [|discriminate]. apply (py_int_spec w 10 s z ltac:(lia)) in P'.
      destruct (literal_hex w s z P') as (z' & L). apply (py_int_spec w 16 s z' ltac:(lia)) in L. congruence.
Qed.

Lemma cert_parsed w j c : parseKeyStoreCert w j = Ok c <-> exists t, j = JStr t /\ loadCert w (addPEMCertHeaders t) = Ok c.
Proof.
  unfold parseKeyStoreCert. split.
  - destruct j as [| | | |t| |]; try discriminate. intros H. exists t. split; [reflexivity|].
    destruct (loadCert w (addPEMCertHeaders t)) as [x|x]; [exact H|]. cbn [catch] in H. destruct (value_error x); discriminate.
  - intros (t & -> & ->). reflexivity.
Qed.
Lemma key_parsed w j k : parseKeyStorePubkey w j = Ok k <-> exists t, j = JStr t /\ loadPubKey w (addPEMPubKeyHeaders t) = Ok k.
Proof.
  unfold parseKeyStorePubkey. split.
  - destruct j as [| | | |t| |]; try discriminate. intros H. exists t. split; [reflexivity|].
    destruct (loadPubKey w (addPEMPubKeyHeaders t)) as [x|x]; [exact H|]. cbn [catch] in H. destruct (value_error x); discriminate.
  - intros (t & -> & ->). reflexivity.
Qed.

Lemma read_entry_spec w ks name value ks' : read_entry w ks name value = Ok ks' <->
  exists i k c, entry_says w name value i (k, c) /\ ks' = putKey ks i k c.
Proof.
  split.
  - intros H. unfold read_entry in H. destruct value as [| | | | | |d]; try discriminate.
    destruct (dict_get d k_id) as [jid|] eqn:E1; [|discriminate]. destruct (dict_get d k_type) as [jty|] eqn:E2; [|discriminate].
    destruct (dict_get d k_pem) as [cp|] eqn:E3; [|discriminate]. destruct jid as [| | | |inner| |]; try discriminate.
    destruct (str_eqb name inner) eqn:En; [|discriminate]. apply str_eqb_eq in En. subst inner.
    destruct jty as [| | | |ty| |]; try discriminate. destruct (str_eqb ty v_cert_type) eqn:T1.
    + apply str_eqb_eq in T1. subst ty. destruct (strSerialToKeyIds w name) as [ids|] eqn:I; [|discriminate]. cbn [bind] in H.
      destruct ids as [|i ids]; [discriminate|]. destruct (parseKeyStoreCert w cp) as [c|] eqn:P; [|discriminate]. cbn [bind] in H.
      apply Ok_inj in H. subst ks'. apply cert_parsed in P as (t & -> & L). exists i, (w_cert_pubkey w c), (Some c). split; [|reflexivity].
      apply (says_cert w name d t c i E1 E2 E3 L). apply cert_id_spec. eauto.
    + destruct (str_eqb ty v_key_type) eqn:T2; [|discriminate]. apply str_eqb_eq in T2. subst ty.
      destruct (parseKeyStorePubkey w cp) as [k|] eqn:P; [|discriminate]. cbn [bind] in H. apply Ok_inj in H. subst ks'.
      apply key_parsed in P as (t & -> & L). exists name, k, None. split; [|reflexivity]. exact (says_key w name d t k E1 E2 E3 L).
  - intros (i & k & c & H & ->). remember (k, c) as e eqn:Ee. destruct H as [d t c' i E1 E2 E3 L I|d t k' E1 E2 E3 L]; injection Ee as <- <-;
      unfold read_entry; fold k_id in E1; fold k_type in E2; fold k_pem in E3; rewrite E1, E2, E3, str_eqb_refl.
    + fold v_cert_type. rewrite str_eqb_refl. apply cert_id_spec in I as (ids & I). rewrite I. cbn [bind].
      rewrite (proj2 (cert_parsed w (JStr t) c')) by eauto. reflexivity.
    + fold v_key_type. change (str_eqb v_key_type v_cert_type) with false. cbn iota. rewrite str_eqb_refl.
      rewrite (proj2 (key_parsed w (JStr t) k')) by eauto. reflexivity.
Qed.

Lemma entry_says_fun w name value i e i' e' : entry_says w name value i e -> entry_says w name value i' e' -> i = i' /\ e = e'.
Proof.
  intros H H'. destruct e as [k c], e' as [k' c'].
  assert (read_entry w [] name value = Ok (putKey [] i k c)) as R by (apply read_entry_spec; eauto 6).
  assert (read_entry w [] name value = Ok (putKey [] i' k' c')) as R' by (apply read_entry_spec; eauto 6).
  rewrite R in R'. apply Ok_inj in R'. unfold putKey in R'. cbn [dict_set] in R'. injection R' as <- <- <-. now split.
Qed.

Definition at_id (ks : keystore) (i : str) : option (pubkey * option cert) := option_map (fun kt => (kt_key kt, kt_cert kt)) (dict_get ks i).

Lemma read_entries_spec w m : forall ks,
  (forall ks', read_entries w ks m = Ok ks' -> well_formed w m
     /\ forall i, exists o, says w m i o /\ at_id ks' i = match o with Some e => Some e | None => at_id ks i end)
  /\ (well_formed w m -> exists ks', read_entries w ks m = Ok ks').
Proof.
  induction m as [|[name value] m IH]; intros ks; cbn [read_entries].
  - split; [|intros _; eauto]. intros ks' H. apply Ok_inj in H. subst ks'. split; [constructor|]. intros i. exists None.
    split; [|reflexivity]. right. split; [reflexivity|]. intros ? ? ? [].
  - split.
    + intros ks' H. destruct (read_entry w ks name value) as [ks1|] eqn:R; [|discriminate]. cbn [bind] in H.
      apply read_entry_spec in R as (j & k & c & S & ->). destruct (proj1 (IH _) _ H) as [Wf A].
      split; [constructor; [cbn [fst snd]; eauto|exact Wf]|]. intros i. destruct (A i) as (o & So & G). destruct o as [e|].
      * exists (Some e). split; [|exact G]. left. destruct So as [(a & n & v & b & e' & -> & X & Y & Z)|[X _]]; [|discriminate].
        exists ((name, value) :: a), n, v, b, e'. split; [reflexivity|]. now split.
      * destruct So as [(a & n & v & b & e' & _ & _ & Y & _)|[_ So]]; [discriminate|].
        unfold at_id at 2 in G. unfold putKey in G. rewrite get_set in G. destruct (str_eqb j i) eqn:E.
        -- apply str_eqb_eq in E. subst j. exists (Some (k, c)). split; [|exact G]. left. exists [], name, value, m, (k, c).
           split; [reflexivity|]. split; [exact S|]. split; [reflexivity|exact So].
        -- exists None. split; [|exact G]. right. split; [reflexivity|]. intros n v e' [H'|H']; [|now apply So].
           injection H' as -> ->. intros S'. apply (entry_says_fun _ _ _ _ _ _ _ S) in S' as [-> _]. now rewrite str_eqb_refl in E.
    + intros Wf. apply Forall_cons_iff in Wf as [(i & [k c] & S) Wf]. cbn [fst snd] in S.
      rewrite (proj2 (read_entry_spec w ks name value (putKey ks i k c))) by eauto 6. cbn [bind]. now apply IH.
Qed.

Lemma file_entries_spec j m : file_entries j m <-> match j with JDict d => dict_get d k_map = Some (JDict m) | _ => False end.
Proof.
  unfold file_entries. split; [intros (d & -> & H); exact H|]. destruct j as [| | | | | |d]; try easy. intros H. now exists d.
Qed.

Theorem read_file w j : 
  (forall ks, readStoreFromJson w j = Ok ks -> exists m, file_entries j m /\ well_formed w m
     /\ forall i, exists o, says w m i o /\ getKey ks i = option_map fst o /\ getCert ks i = match o with Some e => snd e | None => None end)
  /\ ((exists ks, readStoreFromJson w j = Ok ks) <-> exists m, file_entries j m /\ well_formed w m).
Proof.
  assert (forall ks, readStoreFromJson w j = Ok ks <-> exists m, file_entries j m /\ read_entries w [] m = Ok ks) as R.
  { intros ks. unfold readStoreFromJson. split.
    - destruct j as [| | | | | |d]; try discriminate. destruct (dict_get d k_map) as [jm|] eqn:E; [|discriminate].
      destruct jm as [| | | | | |m]; try discriminate. intros H. exists m. split; [now apply file_entries_spec|exact H].
    - intros (m & F & H). apply file_entries_spec in F. destruct j as [| | | | | |d]; try contradiction. now rewrite F. }
  split; [|split].
  - intros ks H. apply R in H as (m & F & H). destruct (proj1 (read_entries_spec w m []) ks H) as [Wf A]. exists m. split; [exact F|]. split; [exact Wf|].
    intros i. destruct (A i) as (o & S & G). exists o. split; [exact S|]. unfold getKey, getCert, at_id in *. cbn [dict_get option_map] in G.
    destruct (dict_get ks i) as [kt|]; cbn [option_map] in *; destruct o as [e|]; try discriminate; [|now split].
    apply Some_inj in G. subst e. now split.
  - intros (ks & H). apply R in H as (m & F & H). exists m. split; [exact F|]. exact (proj1 (proj1 (read_entries_spec w m []) ks H)).
  - intros (m & F & Wf). destruct (proj2 (read_entries_spec w m []) Wf) as (ks & H). exists ks. apply R. eauto.
Qed.

(** Which entry counts is determined. *)
Theorem says_fun w m i o o' : says w m i o -> says w m i o' -> o = o'.
Proof.
  intros [(a & n & v & b & e & E & S & -> & L)|[-> L]] [(a' & n' & v' & b' & e' & E' & S' & -> & L')|[-> L']]; [| | |reflexivity].
  - revert a' E'. subst m. induction a as [|x a IH]; intros a' E'.
    + destruct a' as [|x' a']; cbn [app] in E'.
      * injection E' as <- <- _. now rewrite (proj2 (entry_says_fun _ _ _ _ _ _ _ S S')).
      * injection E' as E1 E2. exfalso. apply (L n' v' e'); [|exact S']. rewrite E2. apply in_or_app. right. now left.
    + destruct a' as [|x' a']; cbn [app] in E'; injection E' as E1 E2.
      * exfalso. apply (L' n v e); [|exact S]. rewrite <- E2. apply in_or_app. right. now left.
      * exact (IH a' E2).
  - exfalso. apply (L' n v e); [|exact S]. rewrite E. apply in_or_app. right. now left.
  - exfalso. apply (L n' v' e'); [|exact S']. rewrite E'. apply in_or_app. right. now left.
Qed.

(** Files that are rejected *)
Lemma catch_err {A} (m : result A) x : (forall y, m = Err y -> value_error y = true) -> catch m value_error KeyStoreError = Err x -> x = KeyStoreError.
Proof. intros H. destruct m as [a|y]; cbn [catch]; [discriminate|]. rewrite (H y eq_refl). congruence. Qed.

Lemma load_err {A} (f : bytes -> option A) pem y :
  (do b <- utf8_encode pem; match f b with Some c => Ok c | None => Err PyValueError end) = Err y -> value_error y = true.
Proof.
  destruct (utf8_encode pem) as [b|x] eqn:U; cbn [bind]; [destruct (f b); [discriminate|]; intros H; injection H as <-; reflexivity|].
  intros H. injection H as <-. now rewrite (utf8_encode_err _ _ U).
Qed.

Lemma read_entry_err w ks name value x : read_entry w ks name value = Err x -> x = KeyStoreError \/ x = PyIndexError /\ name = [].
Proof.
  intros H. unfold read_entry in H. destruct value as [| | | | | |d]; try (injection H as <-; now left).
  destruct (dict_get d k_id) as [jid|]; [|injection H as <-; now left]. destruct (dict_get d k_type) as [jty|]; [|injection H as <-; now left].
  destruct (dict_get d k_pem) as [cp|]; [|injection H as <-; now left]. destruct jid as [| | | |inner| |]; try (injection H as <-; now left).
  destruct (str_eqb name inner); [|injection H as <-; now left].
  destruct jty as [| | | |ty| |]; try (injection H as <-; now left). destruct (str_eqb ty v_cert_type).
  - destruct (strSerialToKeyIds w name) as [ids|y] eqn:I; cbn [bind] in H.
    + destruct ids as [|i ids]; [injection H as <-; now left|]. destruct (parseKeyStoreCert w cp) as [c|y] eqn:P; cbn [bind] in H; [discriminate|].
      injection H as <-. left. unfold parseKeyStoreCert in P. destruct cp as [| | | |t| |]; try (injection P as <-; reflexivity).
      apply (catch_err _ _ (load_err _ _)) in P. exact P.
    + injection H as <-. right. unfold strSerialToKeyIds in I. destruct name; [injection I as <-; now split|discriminate].
  - destruct (str_eqb ty v_key_type); [|injection H as <-; now left].
    destruct (parseKeyStorePubkey w cp) as [c|y] eqn:P; cbn [bind] in H; [discriminate|].
    injection H as <-. left. unfold parseKeyStorePubkey in P. destruct cp as [| | | |t| |]; try (injection P as <-; reflexivity).
    apply (catch_err _ _ (load_err _ _)) in P. exact P.
Qed.

Theorem read_file_err w j x : readStoreFromJson w j = Err x ->
  x = KeyStoreError \/ x = PyIndexError /\ exists m v, file_entries j m /\ In ([], v) m.
Proof.
  unfold readStoreFromJson. destruct j as [| | | | | |d]; try (intros H; injection H as <-; now left).
  destruct (dict_get d k_map) as [jm|] eqn:E; [|intros H; injection H as <-; now left].
  destruct jm as [| | | | | |m]; try (intros H; injection H as <-; now left). intros H.
  assert (x = KeyStoreError \/ x = PyIndexError /\ exists v, In ([], v) m) as R.
  { clear E. revert H. generalize (@nil (str * key_tuple)). induction m as [|[n v] m IH]; intros ks H; cbn [read_entries] in H; [discriminate|].
    destruct (read_entry w ks n v) as [ks'|y] eqn:R; cbn [bind] in H.
    - destruct (IH _ H) as [->|(-> & v' & I)]; [now left|]. right. split; [reflexivity|]. exists v'. now right.
    - injection H as ->. apply read_entry_err in R as [->|[-> ->]]; [now left|]. right. split; [reflexivity|]. exists v. now left. }
  destruct R as [->|(-> & v & I)]; [now left|]. right. split; [reflexivity|]. exists m, v. split; [now apply file_entries_spec|exact I].
Qed.
