(** The key store and the choice of keys (C36, C37). *)
From Coq Require Import Lia ZifyClasses ZifyN ZifyNat ZifyBool.
From Verif Require Import PyBase World Codec PyFloat Algo Receipt Json Pem KeyStore VerifyReceipt ListFacts CodecFacts
  SpecKeys IntFacts PemFacts SpecStore.
Open Scope N_scope.
Open Scope py_scope.

(** ** Dictionaries *)

Lemma get_set {A} (d : list (str * A)) k v i : dict_get (dict_set d k v) i = if str_eqb k i then Some v else dict_get d i.
Proof.
  induction d as [|[k' v'] d IH]; cbn [dict_set dict_get]; [reflexivity|]. destruct (str_eqb k' k) eqn:E.
  - apply str_eqb_eq in E. subst k'. cbn [dict_get]. now destruct (str_eqb k i).
  - cbn [dict_get]. rewrite IH. destruct (str_eqb k' i) eqn:E'; [|reflexivity].
    apply str_eqb_eq in E'. subst k'. destruct (str_eqb k i) eqn:E2; [|reflexivity].
    apply str_eqb_eq in E2. subst k. now rewrite str_eqb_refl in E.
Qed.

Lemma get_none {A} (d : list (str * A)) k : dict_get d k = None <-> ~ In k (map fst d).
Proof.
  induction d as [|[k' v'] d IH]; cbn [dict_get map fst In]; [tauto|]. destruct (str_eqb k' k) eqn:E.
  - apply str_eqb_eq in E. subst k'. split; [discriminate|]. intros H. exfalso. apply H. now left.
  - apply str_eqb_neq in E. rewrite IH. tauto.
Qed.

Lemma get_del {A} (d : list (str * A)) k i : NoDup (map fst d) ->
  dict_get (dict_del d k) i = if str_eqb k i then None else dict_get d i.
Proof.
  induction d as [|[k' v'] d IH]; cbn [dict_del dict_get map fst]; intros N; [now destruct (str_eqb k i)|].
  apply NoDup_cons_iff in N as [N1 N2]. destruct (str_eqb k' k) eqn:E.
  - apply str_eqb_eq in E. subst k'. destruct (str_eqb k i) eqn:E2; [|reflexivity].
    apply str_eqb_eq in E2. subst i. now apply get_none.
  - cbn [dict_get]. rewrite IH by exact N2. destruct (str_eqb k' i) eqn:E'; [|reflexivity].
    apply str_eqb_eq in E'. subst k'. destruct (str_eqb k i) eqn:E2; [|reflexivity].
    apply str_eqb_eq in E2. subst k. now rewrite str_eqb_refl in E.
Qed.

Lemma keys_set {A} (d : list (str * A)) k v i : In i (map fst (dict_set d k v)) <-> i = k \/ In i (map fst d).
Proof.
  induction d as [|[k' v'] d IH]; cbn [dict_set map fst In]; [intuition|]. destruct (str_eqb k' k) eqn:E.
  - apply str_eqb_eq in E. subst. cbn [map fst In]. intuition.
  - cbn [map fst In]. rewrite IH. intuition.
Qed.

Lemma nodup_set {A} (d : list (str * A)) k v : NoDup (map fst d) -> NoDup (map fst (dict_set d k v)).
Proof.
  induction d as [|[k' v'] d IH]; cbn [dict_set map fst]; intros N; [repeat constructor; intros []|].
  destruct (str_eqb k' k) eqn:E; [exact N|]. apply NoDup_cons_iff in N as [N1 N2]. cbn [map fst]. constructor; [|now apply IH].
  rewrite keys_set. intros [->|H]; [now rewrite str_eqb_refl in E|contradiction].
Qed.

Lemma keys_del {A} (d : list (str * A)) k i : In i (map fst (dict_del d k)) -> In i (map fst d).
Proof.
  induction d as [|[k' v'] d IH]; cbn [dict_del map fst In]; [tauto|]. destruct (str_eqb k' k); [tauto|].
  cbn [map fst In]. tauto.
Qed.

Lemma nodup_del {A} (d : list (str * A)) k : NoDup (map fst d) -> NoDup (map fst (dict_del d k)).
Proof.
  induction d as [|[k' v'] d IH]; cbn [dict_del map fst]; intros N; [constructor|].
  apply NoDup_cons_iff in N as [N1 N2]. destruct (str_eqb k' k); [exact N2|]. cbn [map fst]. constructor; [|now apply IH].
  intros H. apply N1. now apply keys_del in H.
Qed.

Lemma set_fresh {A} (d : list (str * A)) k v : ~ In k (map fst d) -> dict_set d k v = d ++ [(k, v)].
Proof.
  induction d as [|[k' v'] d IH]; cbn [dict_set map fst In]; intros N; [reflexivity|].
  destruct (str_eqb k' k) eqn:E; [apply str_eqb_eq in E; tauto|]. cbn [app]. f_equal. apply IH. tauto.
Qed.

(** ** C37: histories *)

Definition pair_of (kt : key_tuple) : pubkey * option cert := (kt_key kt, kt_cert kt).
Definition content (ks : keystore) (i : str) : option (pubkey * option cert) := option_map pair_of (dict_get ks i).

Lemma step_spec w ks op i : NoDup (map fst ks) ->
  NoDup (map fst (store_step w ks op)) /\
  ((exists e, affects w op i e /\ content (store_step w ks op) i = e)
   \/ ((forall e, ~ affects w op i e) /\ content (store_step w ks op) i = content ks i)).
Proof.
  intros N. destruct op as [j k c|j|pem|j pem]; cbn [store_step].
  - unfold putKey. split; [now apply nodup_set|]. unfold content. rewrite get_set.
    destruct (str_eqb j i) eqn:E.
    + apply str_eqb_eq in E. subst j. left. exists (Some (k, c)). split; [constructor|reflexivity].
    + apply str_eqb_neq in E. right. split; [|reflexivity]. intros e A. inversion A. contradiction.
  - unfold delKey. split; [now apply nodup_del|]. unfold content. rewrite get_del by exact N.
    destruct (str_eqb j i) eqn:E.
    + apply str_eqb_eq in E. subst j. left. exists None. split; [constructor|reflexivity].
    + apply str_eqb_neq in E. right. split; [|reflexivity]. intros e A. inversion A. contradiction.
  - unfold putPEMCert. destruct (loadCert w pem) as [c|x] eqn:L; cbn [bind].
    + split; [now apply nodup_set|]. unfold content. rewrite get_set.
      destruct (str_eqb (numSerialToKeyId (w_serial w c)) i) eqn:E.
      * apply str_eqb_eq in E. subst i. left. exists (Some (w_cert_pubkey w c, Some c)). split; [now constructor|reflexivity].
      * apply str_eqb_neq in E. right. split; [|reflexivity]. intros e A. inversion A as [| |pem' c' L' E1 E2 E3|].
        subst. rewrite L in L'. apply Ok_inj in L'. subst c'. contradiction.
    + split; [exact N|]. right. split; [|reflexivity]. intros e A. inversion A as [| |pem' c' L' E1 E2 E3|].
      rewrite L in L'. discriminate.
  - unfold putPEMKey. destruct (loadPubKey w pem) as [k|x] eqn:L; cbn [bind].
    + split; [now apply nodup_set|]. unfold content. rewrite get_set.
      destruct (str_eqb j i) eqn:E.
      * apply str_eqb_eq in E. subst i. left. exists (Some (k, None)). split; [now constructor|reflexivity].
      * apply str_eqb_neq in E. right. split; [|reflexivity]. intros e A. inversion A. contradiction.
    + split; [exact N|]. right. split; [|reflexivity]. intros e A. inversion A as [| | |i' pem' k' L' E1 E2 E3].
      rewrite L in L'. discriminate.
Qed.

Lemma run_app w ops op : store_run w (ops ++ [op]) = store_step w (store_run w ops) op.
Proof. unfold store_run. now rewrite fold_left_app. Qed.

Lemma run_nodup w ops : NoDup (map fst (store_run w ops)).
Proof.
  induction ops as [|op ops IH] using rev_ind; [constructor|]. rewrite run_app. now apply (step_spec w _ op []).
Qed.

Lemma affects_fun w op i e e' : affects w op i e -> affects w op i e' -> e = e'.
Proof.
  intros H1 H2. destruct H1; inversion H2; subst; try reflexivity.
  - assert (Ok c0 = Ok c) as X by congruence. apply Ok_inj in X. now subst.
  - assert (Ok k0 = Ok k) as X by congruence. apply Ok_inj in X. now subst.
Qed.

Lemma run_content w ops i : stored w ops i (content (store_run w ops) i).
Proof.
  induction ops as [|op ops IH] using rev_ind.
  - right. split; [reflexivity|]. intros op' e' [].
  - rewrite run_app. destruct (step_spec w (store_run w ops) op i (run_nodup w ops)) as [_ [(e & A & ->)|[NA ->]]].
    + left. exists ops, op, []. split; [reflexivity|]. split; [exact A|]. intros op' e' [].
    + destruct IH as [(pre & o & post & -> & A & P)|[-> P]].
      * left. exists pre, o, (post ++ [op]). split; [now rewrite <- app_assoc|]. split; [exact A|].
        intros op' e' H. apply in_app_or in H as [H|[<-|[]]]; [now apply P|apply NA].
      * right. split; [reflexivity|]. intros op' e' H. apply in_app_or in H as [H|[<-|[]]]; [now apply P|apply NA].
Qed.

Lemma stored_fun w ops i e e' : stored w ops i e -> stored w ops i e' -> e = e'.
Proof.
  revert e e'. induction ops as [|op ops IH] using rev_ind; intros e e'.
  - intros [(pre & o & post & E & _)|[-> _]] [(pre' & o' & post' & E' & _)|[-> _]]; try reflexivity;
      [destruct pre|destruct pre|destruct pre']; discriminate.
  - assert (forall e, stored w (ops ++ [op]) i e -> affects w op i e \/ (stored w ops i e /\ forall e', ~ affects w op i e')) as D.
    { clear. intros e [(pre & o & post & E & A & P)|[-> P]].
      - destruct post as [|x post] using rev_ind.
        + apply app_inj_tail in E as [-> ->]. now left.
        + clear IHpost. replace (pre ++ o :: post ++ [x]) with ((pre ++ o :: post) ++ [x]) in E by now rewrite <- app_assoc.
          apply app_inj_tail in E as [-> ->]. right. split.
          * left. exists pre, o, post. split; [reflexivity|]. split; [exact A|].
            intros op' e' H. apply P. apply in_or_app. now left.
          * intros e'. apply P. apply in_or_app. right. now left.
      - right. split; [right; split; [reflexivity|]; intros op' e' H; apply P; apply in_or_app; now left|].
        intros e'. apply P. apply in_or_app. right. now left. }
    intros H1 H2. apply D in H1 as [A1|[S1 N1]]; apply D in H2 as [A2|[S2 N2]].
    + now apply (affects_fun w op i).
    + now apply N2 in A1.
    + now apply N1 in A2.
    + now apply IH.
Qed.

(** What is found is what the history says. *)
Theorem store_content w ops i e : stored w ops i e ->
  getKey (store_run w ops) i = option_map fst e
  /\ getCert (store_run w ops) i = (match e with Some (_, c) => c | None => None end)
  /\ (In i (map fst (store_run w ops)) <-> e <> None).
Proof.
  intros H. pose proof (stored_fun w ops i _ _ H (run_content w ops i)) as ->. unfold content, getKey, getCert.
  pose proof (get_none (store_run w ops) i) as G.
  destruct (dict_get (store_run w ops) i) as [[k c]|]; cbn.
  - split; [reflexivity|]. split; [reflexivity|]. split; [discriminate|]. intros _.
    destruct (in_dec (list_eq_dec N.eq_dec) i (map fst (store_run w ops))) as [I|I]; [exact I|]. apply G in I. discriminate.
  - split; [reflexivity|]. split; [reflexivity|]. split; [|contradiction]. intros I. now apply G in I.
Qed.

Theorem store_total w ops i : exists e, stored w ops i e.
Proof. eexists. apply run_content. Qed.

(** ** C37: writing and reading back *)

Lemma key_id_read w z : (0 <= z)%Z -> exists ids, strSerialToKeyIds w (fmt_x z) = Ok (fmt_x z :: ids).
Proof.
  intros P. pose proof (digits_numeral 16 (Z.abs_N z) ltac:(lia)) as D.
  assert (fmt_x z = digits 16 (Z.abs_N z)) as E.
  { unfold fmt_x, fmt_base. now replace (z <? 0)%Z with false by lia. }
  pose proof (numeral_digits _ _ _ D) as F. pose proof (numeral_nonempty _ _ _ D) as N. rewrite <- E in F, N.
  unfold strSerialToKeyIds. destruct (fmt_x z) as [|c r] eqn:X; [contradiction|].
  apply Forall_cons_iff in F as [(v & [F _]) _]. unfold c_dash. replace (c =? 45) with false by lia.
  rewrite <- X. unfold fmt_x at 1. rewrite py_int_fmt by lia. cbn [app]. eauto.
Qed.

(** Entries that survive. *)
Definition entry_ok (w : world) (e : str * key_tuple) : Prop :=
  match kt_cert (snd e) with
  | Some c => (exists z, (0 <= z)%Z /\ fst e = fmt_x z) /\ kt_key (snd e) = w_cert_pubkey w c
              /\ (exists t, w_load_cert w t = Some c)
  | None => exists t, w_load_pubkey w t = Some (kt_key (snd e))
  end.

Lemma load_Ok_cert w pem c : loadCert w pem = Ok c -> exists t, w_load_cert w t = Some c.
Proof.
  unfold loadCert. intros H. apply bind_Ok in H as (b & _ & H). exists b.
  destruct (w_load_cert w b) as [c'|]; [|discriminate]. apply Ok_inj in H. now subst.
Qed.
Lemma load_Ok_key w pem k : loadPubKey w pem = Ok k -> exists t, w_load_pubkey w t = Some k.
Proof.
  unfold loadPubKey. intros H. apply bind_Ok in H as (b & _ & H). exists b.
  destruct (w_load_pubkey w b) as [c'|]; [|discriminate]. apply Ok_inj in H. now subst.
Qed.

Lemma set_Forall {A} (P : str * A -> Prop) d k v : Forall P d -> P (k, v) -> Forall P (dict_set d k v).
Proof.
  intros F Hv. induction F as [|[k' v'] d H F IH]; cbn [dict_set]; [now constructor|].
  destruct (str_eqb k' k) eqn:E; [|now constructor]. apply str_eqb_eq in E. subst. now constructor.
Qed.
Lemma del_Forall {A} (P : str * A -> Prop) d k : Forall P d -> Forall P (dict_del d k).
Proof.
  intros F. induction F as [|[k' v'] d H F IH]; cbn [dict_del]; [constructor|].
  destruct (str_eqb k' k); [assumption|now constructor].
Qed.

Lemma run_entries w ops : Forall from_pem ops -> Forall (entry_ok w) (store_run w ops).
Proof.
  induction ops as [|op ops IH] using rev_ind; [constructor|]. rewrite run_app, Forall_app. intros [F Fo].
  apply Forall_inv in Fo. specialize (IH F). destruct op as [j k c|j|pem|j pem]; cbn [store_step from_pem] in *.
  - contradiction.
  - now apply del_Forall.
  - unfold putPEMCert. destruct (loadCert w pem) as [c|x] eqn:L; cbn [bind]; [|exact IH]. apply set_Forall; [exact IH|].
    unfold entry_ok. cbn [snd kt_cert fst kt_key]. split; [exists (Z.abs (w_serial w c)); split; [lia|reflexivity]|].
    split; [reflexivity|]. now apply load_Ok_cert in L.
  - unfold putPEMKey. destruct (loadPubKey w pem) as [k|x] eqn:L; cbn [bind]; [|exact IH]. apply set_Forall; [exact IH|].
    unfold entry_ok. cbn [snd kt_cert fst kt_key]. now apply load_Ok_key in L.
Qed.

Lemma pem_text_ascii label ls tail : Forall (fun c => c < 128) label -> Forall pem_data ls -> Forall (fun c => c < 128) tail ->
  utf8_encode (pem_text label ls tail) = Ok (pem_text label ls tail).
Proof.
  intros L F T. apply utf8_encode_ascii. unfold pem_text. rewrite !Forall_app. repeat split; try assumption.
  1, 2, 3, 5, 6: apply is_ascii_spec; reflexivity.
  induction F as [|l ls H _ IH]; [constructor|]. cbn [map List.concat]. rewrite Forall_app. split; [|exact IH].
  apply Forall_app. split; [|repeat constructor]. eapply Forall_impl; [|exact H]. intros c. unfold pem_char. lia.
Qed.

Lemma codec_reload label load dump c t : unbroken label -> pem_codec label load dump -> load t = Some c ->
  exists s, strip_pem (dump c) = s /\ pem_data s /\ load (pem_text label (data_lines s) []) = Some c.
Proof.
  intros U K L. destruct (K t c L) as (ls & E & F & N & R). exists (List.concat ls).
  assert (pem_data (List.concat ls)) as D.
  { clear -F. induction F; [constructor|]. cbn [List.concat]. apply Forall_app. now split. }
  split; [|split; [exact D|]].
  - rewrite E, strip_pem_text; [reflexivity|exact U| |now right]. eapply Forall_impl; [|exact F]. apply pem_char_unbroken.
  - destruct (data_lines_spec _ N) as (C & W & _). apply R; [|exact C].
    pose proof (data_lines_forall pem_char _ D) as G. rewrite Forall_forall in *. intros x Hx.
    split; [now apply G|]. now apply W.
Qed.

Lemma reload_cert w c t : pem_ok w -> w_load_cert w t = Some c -> parseKeyStoreCert w (JStr (exportCertToPEM w c)) = Ok c.
Proof.
  intros [K _] L. destruct (codec_reload _ _ _ _ _ cert_label_unbroken K L) as (s & E & D & R).
  unfold parseKeyStoreCert, exportCertToPEM, loadCert. rewrite E, addPEMCertHeaders_text.
  rewrite pem_text_ascii; [|apply is_ascii_spec; reflexivity|now apply data_lines_forall|constructor].
  cbn [bind]. now rewrite R.
Qed.
Lemma reload_key w k t : pem_ok w -> w_load_pubkey w t = Some k -> parseKeyStorePubkey w (JStr (exportKeyToPEM w k)) = Ok k.
Proof.
  intros [_ K] L. destruct (codec_reload _ _ _ _ _ key_label_unbroken K L) as (s & E & D & R).
  unfold parseKeyStorePubkey, exportKeyToPEM, loadPubKey. rewrite E, addPEMPubKeyHeaders_text.
  rewrite pem_text_ascii; [|apply is_ascii_spec; reflexivity|now apply data_lines_forall|constructor].
  cbn [bind]. now rewrite R.
Qed.

Lemma read_written w e acc : pem_ok w -> entry_ok w e -> ~ In (fst e) (map fst acc) ->
  read_entry w acc (fst e) (entry_to_json w (fst e) (snd e)) = Ok (acc ++ [e]).
Proof.
  intros P E N. destruct e as [i [k [c|]]]; unfold entry_ok in E; cbn [snd fst kt_cert kt_key] in *.
  - destruct E as ((z & Pz & Ei) & -> & (t & L)). unfold entry_to_json. cbn [kt_cert].
    unfold read_entry.
    change (dict_get [(k_id, JStr i); (k_type, JStr v_cert_type); (k_pem, JStr (exportCertToPEM w c))] k_id) with (Some (JStr i)).
    change (dict_get [(k_id, JStr i); (k_type, JStr v_cert_type); (k_pem, JStr (exportCertToPEM w c))] k_type) with (Some (JStr v_cert_type)).
    change (dict_get [(k_id, JStr i); (k_type, JStr v_cert_type); (k_pem, JStr (exportCertToPEM w c))] k_pem) with (Some (JStr (exportCertToPEM w c))).
    cbn iota. rewrite str_eqb_refl. change (str_eqb v_cert_type v_cert_type) with true. cbn iota.
    destruct (key_id_read w z Pz) as (ids & I). rewrite <- Ei in I. rewrite I. cbn [bind]. rewrite (reload_cert w c t P L). cbn [bind]. unfold putKey. now rewrite set_fresh.
  - destruct E as (t & L). unfold entry_to_json. cbn [kt_cert kt_key]. unfold read_entry.
    change (dict_get [(k_id, JStr i); (k_type, JStr v_key_type); (k_pem, JStr (exportKeyToPEM w k))] k_id) with (Some (JStr i)).
    change (dict_get [(k_id, JStr i); (k_type, JStr v_key_type); (k_pem, JStr (exportKeyToPEM w k))] k_type) with (Some (JStr v_key_type)).
    change (dict_get [(k_id, JStr i); (k_type, JStr v_key_type); (k_pem, JStr (exportKeyToPEM w k))] k_pem) with (Some (JStr (exportKeyToPEM w k))).
    cbn iota. rewrite str_eqb_refl. change (str_eqb v_key_type v_cert_type) with false. change (str_eqb v_key_type v_key_type) with true. cbn iota.
    rewrite (reload_key w k t P L). cbn [bind]. unfold putKey. now rewrite set_fresh.
Qed.

Lemma read_all w es acc : pem_ok w -> Forall (entry_ok w) es -> NoDup (map fst (acc ++ es)) ->
  read_entries w acc (map (fun e => (fst e, entry_to_json w (fst e) (snd e))) es) = Ok (acc ++ es).
Proof.
  intros P F. revert acc. induction F as [|e es E F IH]; intros acc N; [now rewrite app_nil_r|].
  cbn [map read_entries]. rewrite read_written; [|exact P|exact E|].
  - cbn [bind]. rewrite IH; [now rewrite <- app_assoc|]. now rewrite <- app_assoc.
  - rewrite map_app in N. cbn [map] in N. apply NoDup_remove_2 in N. intros H. apply N. apply in_or_app. now left.
Qed.

Theorem store_json w ops key : pem_ok w -> Forall from_pem ops ->
  readStoreFromJson w (writeStoreToJson w (store_run w ops) key) = Ok (store_run w ops).
Proof.
  intros P F. unfold readStoreFromJson, writeStoreToJson. cbn [dict_get]. rewrite str_eqb_refl.
  apply (read_all w (store_run w ops) [] P); [now apply run_entries|apply run_nodup].
Qed.

(** The turnover key written along is read back. *)
Theorem store_json_key w ks k : is_bytes k -> loadKeyFromJson (writeStoreToJson w ks (Some (b64encode k))) = Ok (Some k).
Proof.
  intros B. unfold loadKeyFromJson, writeStoreToJson. cbn [dict_get]. change (str_eqb k_map k_aes) with false. cbn iota.
  rewrite str_eqb_refl, utf8_encode_ascii by apply b64encode_ascii. cbn [bind]. rewrite b64decode_encode by exact B. reflexivity.
Qed.

(** ** C36 *)

Lemma verify_choice w v v' r p : choose_key w v r = choose_key w v' r -> verify w v r p = verify w v' r p.
Proof. intros H. unfold verify. now rewrite H. Qed.

Lemma serial_body s b : (s = b \/ s = 45 :: b) -> b <> [] -> hd_error b <> Some 45 ->
  exists c r, s = c :: r /\ (if c =? c_dash then r else s) = b.
Proof.
  intros [-> | ->] N H.
  - destruct b as [|c r]; [contradiction|]. exists c, r. split; [reflexivity|]. unfold c_dash.
    destruct (c =? 45) eqn:E; [|reflexivity]. apply N.eqb_eq in E. subst. now contradiction H.
  - exists 45, b. split; reflexivity.
Qed.

Lemma numeral_no_dash base b n : numeral base b n -> b <> [] /\ hd_error b <> Some 45.
Proof.
  intros H. split; [now apply numeral_nonempty in H|]. pose proof (numeral_digits _ _ _ H) as F.
  destruct b as [|c r]; [discriminate|]. apply Forall_cons_iff in F as [(v & [D _]) _]. cbn. intros X.
  apply Some_inj in X. subst. lia.
Qed.

Lemma ids_of_numeral w base s b n : numeral base b n -> (s = b \/ s = 45 :: b) ->
  strSerialToKeyIds w s = Ok ((match py_int w 16 b with Some z => [fmt_x z] | None => [] end)
          ++ (match py_int w 10 b with Some z => [fmt_x z] | None => [] end)).
Proof.
  intros H S. destruct (numeral_no_dash _ _ _ H) as [N D]. destruct (serial_body s b S N D) as (c & r & -> & E).
  unfold strSerialToKeyIds. now rewrite E.
Qed.

Lemma numeral_hex b n : numeral 10 b n -> exists n', numeral 16 b n'.
Proof.
  induction 1 as [c v D|s n c v H (n' & IH) D].
  - exists v. constructor. unfold numeral_digit in *. lia.
  - exists (n' * 16 + v). constructor; [exact IH|]. unfold numeral_digit in *. lia.
Qed.

Lemma serial_id z n : Z.abs z = Z.of_N n -> numSerialToKeyId z = fmt_x (Z.of_N n).
Proof. intros H. unfold numSerialToKeyId. now rewrite H. Qed.

Lemma exists_id i l : In i l -> existsb (str_eqb i) l = true.
Proof. intros H. apply existsb_exists. exists i. split; [exact H|apply str_eqb_refl]. Qed.

Theorem found_hex w ks c r p :
  holds_cert w ks c -> r_zda r <> lit "AT0" ->
  serial_notation 16 (r_certSerial r) (Z.abs_N (w_serial w c)) ->
  verify w (fromKeyStore ks) r p = verify w (fromCert c) r p.
Proof.
  intros G Z (b & Nb & S). apply verify_choice. unfold choose_key. apply str_eqb_neq in Z. rewrite Z.
  rewrite (ids_of_numeral w 16 _ b _ Nb S), (py_int_numeral w 16 b _ ltac:(lia) Nb). cbn [bind app fromKeyStore fromCert v_cert v_store].
  rewrite (serial_id (w_serial w c) (Z.abs_N (w_serial w c)) ltac:(lia)).
  rewrite exists_id by now left. unfold holds_cert in G. rewrite (serial_id (w_serial w c) (Z.abs_N (w_serial w c)) ltac:(lia)) in G.
  cbn [first_key]. now rewrite G.
Qed.

Theorem found_decimal w ks c r p :
  holds_cert w ks c -> r_zda r <> lit "AT0" ->
  serial_notation 10 (r_certSerial r) (Z.abs_N (w_serial w c)) ->
  (forall n, serial_notation 16 (r_certSerial r) n -> n <> Z.abs_N (w_serial w c) -> getKey ks (numSerialToKeyId (Z.of_N n)) = None) ->
  verify w (fromKeyStore ks) r p = verify w (fromCert c) r p.
Proof.
  intros G Z (b & Nb & S) O. apply verify_choice. unfold choose_key. apply str_eqb_neq in Z. rewrite Z.
  destruct (numeral_hex _ _ Nb) as (n' & Nb').
  rewrite (ids_of_numeral w 10 _ b _ Nb S), (py_int_numeral w 16 b _ ltac:(lia) Nb'), (py_int_numeral w 10 b _ ltac:(lia) Nb).
  cbn [bind app fromKeyStore fromCert v_cert v_store].
  rewrite (serial_id (w_serial w c) (Z.abs_N (w_serial w c)) ltac:(lia)).
  rewrite exists_id by (right; now left). unfold holds_cert in G. rewrite (serial_id (w_serial w c) (Z.abs_N (w_serial w c)) ltac:(lia)) in G.
  cbn [first_key]. rewrite G.
  destruct (N.eq_dec n' (Z.abs_N (w_serial w c))) as [->|D]; [now rewrite G|].
  assert (getKey ks (fmt_x (Z.of_N n')) = None) as ->; [|reflexivity].
  rewrite <- (O n'); [|now exists b|exact D]. now rewrite (serial_id _ n') by lia.
Qed.

Lemma id_reads w c s ids : strSerialToKeyIds w s = Ok ids ->
  In (numSerialToKeyId (w_serial w c)) ids -> serial_reads w s (Z.abs (w_serial w c)).
Proof.
  intros H I. unfold strSerialToKeyIds in H. destruct s as [|d s]; [discriminate|].
  apply Ok_inj in H. subst ids. set (b := if d =? c_dash then s else d :: s) in *.
  exists b. split.
  - unfold b, c_dash. destruct (d =? 45) eqn:E; [apply N.eqb_eq in E; subst; now left|]. right. split; [reflexivity|].
    cbn. intros X. apply Some_inj in X. subst. discriminate.
  - apply in_app_or in I as [I|I].
    + left. apply py_int_sound; [lia|]. destruct (py_int w 16 b) as [z|]; [|contradiction]. destruct I as [I|[]].
      apply fmt_x_inj in I. now subst.
    + right. apply py_int_sound; [lia|]. destruct (py_int w 10 b) as [z|]; [|contradiction]. destruct I as [I|[]].
      apply fmt_x_inj in I. now subst.
Qed.

Theorem cert_used w c r p x : verify w (fromCert c) r p = Ok x -> r_zda r <> lit "AT0" ->
  serial_reads w (r_certSerial r) (Z.abs (w_serial w c)).
Proof.
  unfold verify. intros H Z. destruct (known_alg p); [|discriminate]. apply bind_Ok in H as (k & H & _).
  unfold choose_key in H. apply str_eqb_neq in Z. rewrite Z in H. apply bind_Ok in H as (ids & I & H).
  cbn [fromCert v_cert] in H. destruct (existsb (str_eqb (numSerialToKeyId (w_serial w c))) ids) eqn:E; [|discriminate].
  apply existsb_exists in E as (i & Hi & Ei). apply str_eqb_eq in Ei. subst i. now apply (id_reads w c _ ids).
Qed.

Theorem cert_refused w c r : r_zda r <> lit "AT0" -> r_certSerial r <> [] ->
  ~ serial_reads w (r_certSerial r) (Z.abs (w_serial w c)) ->
  verify w (fromCert c) r (lit "R1") = Err (CertSerialMismatch (r_receiptId r)).
Proof.
  intros Z N R. unfold verify. change (known_alg (lit "R1")) with true. cbn iota.
  unfold choose_key. apply str_eqb_neq in Z. rewrite Z.
  destruct (strSerialToKeyIds w (r_certSerial r)) as [ids|e] eqn:I.
  - cbn [bind fromCert v_cert]. destruct (existsb (str_eqb (numSerialToKeyId (w_serial w c))) ids) eqn:E; [|reflexivity].
    exfalso. apply existsb_exists in E as (i & Hi & Ei). apply str_eqb_eq in Ei. subst i. apply R. now apply (id_reads w c _ ids).
  - unfold strSerialToKeyIds in I. destruct (r_certSerial r); [contradiction|discriminate].
Qed.
