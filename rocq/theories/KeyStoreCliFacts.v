(** Facts about key_store.py. *)
From Coq Require Import Lia ZifyClasses ZifyN ZifyNat ZifyBool.
From Verif Require Import PyBase ListFacts World Codec CodecFacts CodecFacts2 PyFloat Json Pem PemFacts KeyStore IntFacts KeyFacts DepBase DepParser DepExport
  KeyStoreCli SpecKeys SpecStore SpecCluster SpecKeyStoreCli IncTheorems ConvertFacts.
Open Scope N_scope.
Open Scope py_scope.

(** ** Loading what was written *)

Lemma fold_set_fresh {A} (l acc : list (str * A)) : NoDup (map fst (acc ++ l)) ->
  fold_left (fun a kv => dict_set a (fst kv) (snd kv)) l acc = acc ++ l.
Proof.
  revert acc. induction l as [|[k v] l IH]; intros acc N; [now rewrite app_nil_r|]. cbn [fold_left fst snd].
  rewrite set_fresh.
  - rewrite IH; rewrite <- app_assoc; [reflexivity|exact N].
  - rewrite map_app in N. cbn [map fst] in N. apply NoDup_remove_2 in N. intros H. apply N. apply in_or_app. now left.
Qed.

Lemma load_dict d : NoDup (map fst d) -> load (JDict d) = JDict (map (fun kv => (fst kv, load (snd kv))) d).
Proof.
  intros N. cbn [load]. f_equal. apply (fold_set_fresh _ []). cbn [app]. rewrite map_map. cbn [fst]. exact N.
Qed.

Lemma load_entry w i kt : load (entry_to_json w i kt) = entry_to_json w i kt.
Proof. unfold entry_to_json. destruct (kt_cert kt); rewrite load_dict; try reflexivity; repeat constructor; vm_compute; intuition discriminate. Qed.

Lemma load_store w ks key : NoDup (map fst ks) -> load (writeStoreToJson w ks key) = writeStoreToJson w ks key.
Proof.
  intros N. unfold writeStoreToJson. rewrite load_dict.
  - cbn [map fst snd]. f_equal. f_equal; [|now destruct key]. f_equal. rewrite load_dict.
    + rewrite map_map. cbn [fst snd]. f_equal. apply map_ext. intros e. now rewrite load_entry.
    + rewrite map_map. cbn [fst]. exact N.
  - destruct key; cbn [map fst]; repeat constructor; vm_compute; intuition discriminate.
Qed.

(** ** What a file contains *)

Definition read_ok (w : world) (e : str * key_tuple) : Prop :=
  match kt_cert (snd e) with
  | Some c => (exists z, fst e = fmt_x z) /\ kt_key (snd e) = w_cert_pubkey w c /\ (exists t, w_load_cert w t = Some c)
  | None => exists t, w_load_pubkey w t = Some (kt_key (snd e))
  end.

Lemma parsed_cert w j c : parseKeyStoreCert w j = Ok c -> exists t, w_load_cert w t = Some c.
Proof.
  unfold parseKeyStoreCert. destruct j; try discriminate. unfold catch. destruct (loadCert w _) eqn:L; [|now destruct (value_error _)].
  intros H. apply Ok_inj in H. subst. now apply load_Ok_cert in L.
Qed.
Lemma parsed_key w j k : parseKeyStorePubkey w j = Ok k -> exists t, w_load_pubkey w t = Some k.
Proof.
  unfold parseKeyStorePubkey. destruct j; try discriminate. unfold catch. destruct (loadPubKey w _) eqn:L; [|now destruct (value_error _)].
  intros H. apply Ok_inj in H. subst. now apply load_Ok_key in L.
Qed.

Lemma ids_form w s ids : strSerialToKeyIds w s = Ok ids -> Forall (fun i => exists z, i = fmt_x z) ids.
Proof.
  unfold strSerialToKeyIds. destruct s as [|c r]; [discriminate|]. intros H. apply Ok_inj in H. subst. apply Forall_app.
  split; destruct (py_int w _ _); repeat constructor; eauto.
Qed.

Lemma read_entry_ok w ks i v ks' : read_entry w ks i v = Ok ks' -> Forall (read_ok w) ks -> NoDup (map fst ks) ->
  Forall (read_ok w) ks' /\ NoDup (map fst ks').
Proof.
  unfold read_entry. intros H F N. destruct v as [| | | | | |d]; try discriminate.
  destruct (dict_get d k_id) as [jid|]; [|discriminate]. destruct (dict_get d k_type) as [jty|]; [|discriminate].
  destruct (dict_get d k_pem) as [cp|]; [|discriminate]. destruct jid as [| | | |inner| |]; try discriminate.
  destruct (str_eqb i inner); [|discriminate]. destruct jty as [| | | |ty| |]; try discriminate.
  destruct (str_eqb ty v_cert_type).
  - apply bind_Ok in H as (ids & I & H). destruct ids as [|j ids]; [discriminate|]. apply bind_Ok in H as (c & C & H).
    apply Ok_inj in H. subst. apply ids_form, Forall_inv in I. unfold putKey.
    split; [|now apply nodup_set]. apply set_Forall; [exact F|]. unfold read_ok. cbn [snd kt_cert fst kt_key].
    split; [exact I|]. split; [reflexivity|]. now apply parsed_cert in C.
  - destruct (str_eqb ty v_key_type); [|discriminate]. apply bind_Ok in H as (k & K & H). apply Ok_inj in H. subst.
    unfold putKey. split; [|now apply nodup_set]. apply set_Forall; [exact F|]. unfold read_ok. cbn [snd kt_cert kt_key].
    now apply parsed_key in K.
Qed.

Lemma read_entries_ok w d : forall ks ks', read_entries w ks d = Ok ks' -> Forall (read_ok w) ks -> NoDup (map fst ks) ->
  Forall (read_ok w) ks' /\ NoDup (map fst ks').
Proof.
  induction d as [|[i v] d IH]; intros ks ks' H F N; cbn [read_entries] in H; [apply Ok_inj in H; subst; now split|].
  apply bind_Ok in H as (ks1 & H1 & H). destruct (read_entry_ok _ _ _ _ _ H1 F N) as [F1 N1]. now apply (IH ks1).
Qed.

Lemma opens_ok w file ks key : opens w file ks key ->
  Forall (read_ok w) ks /\ NoDup (map fst ks) /\ (forall k, key = Some k -> is_bytes k).
Proof.
  intros [R K]. unfold readStoreFromJson in R. destruct (load file) as [| | | | | |d]; try discriminate.
  destruct (dict_get d k_map) as [[| | | | | |m]|]; try discriminate.
  destruct (read_entries_ok _ _ _ _ R ltac:(constructor) ltac:(constructor)) as [F N]. split; [exact F|]. split; [exact N|].
  intros k ->. unfold loadKeyFromJson in K. destruct (dict_get d k_aes) as [[| | | |s| |]|]; try discriminate.
  apply bind_Ok in K as (b & _ & K). apply bind_Ok in K as (k' & D & K). apply Ok_inj, Some_inj in K. subst.
  now apply b64decode_bytes in D.
Qed.

(** ** Writing and reading *)

Lemma fmt_x_sign z : hd_error (fmt_x z) <> Some c_dash -> (0 <= z)%Z.
Proof.
  unfold fmt_x, fmt_base. destruct (z <? 0)%Z eqn:E; [|lia]. intros H. exfalso. apply H. reflexivity.
Qed.

Lemma in_get {A} (d : list (str * A)) k v : NoDup (map fst d) -> In (k, v) d -> dict_get d k = Some v.
Proof.
  induction d as [|[k' v'] d IH]; intros N I; [destruct I|]. cbn [dict_get map fst] in *. apply NoDup_cons_iff in N as [N1 N].
  destruct I as [I|I].
  - injection I as -> ->. now rewrite str_eqb_refl.
  - destruct (str_eqb k' k) eqn:E; [|now apply IH]. apply str_eqb_eq in E. subst. exfalso. apply N1. apply in_map_iff.
    exists (k, v). now split.
Qed.

Lemma kept_ok w ks : Forall (read_ok w) ks -> NoDup (map fst ks) -> signless ks -> Forall (entry_ok w) ks.
Proof.
  intros F N S. rewrite Forall_forall in *. intros [i kt] I. specialize (F _ I). unfold read_ok, entry_ok in *. cbn [fst snd] in *.
  destruct (kt_cert kt) as [c|] eqn:C; [|exact F]. destruct F as ((z & ->) & F). split; [|exact F]. exists z. split; [|reflexivity].
  apply fmt_x_sign. apply (S _ c). unfold getCert. now rewrite (in_get _ _ _ N I).
Qed.

Lemma written_opens w ks key : pem_ok w -> Forall (read_ok w) ks -> NoDup (map fst ks) -> signless ks ->
  (forall k, key = Some k -> is_bytes k) -> opens w (written_store w ks key) ks key.
Proof.
  intros P F N S B. unfold opens, written_store. rewrite load_store by exact N. split.
  - unfold readStoreFromJson, writeStoreToJson. cbn [dict_get]. rewrite str_eqb_refl.
    apply (read_all w ks [] P); [now apply kept_ok|exact N].
  - destruct key as [k|]; cbn [option_map]; [now apply store_json_key, B|reflexivity].
Qed.

(** ** The commands *)

Lemma first_line_spec s : match file_lines s with
  | [] => s = []
  | l :: _ => exists l' rest, s = l' ++ rest /\ ~ In c_nl l' /\ (rest = [] /\ l = l' \/ exists r, rest = c_nl :: r /\ l = l' ++ [c_nl])
  end.
Proof.
  induction s as [|c s IH]; cbn [file_lines]; [reflexivity|]. destruct (c =? c_nl) eqn:E.
  - apply N.eqb_eq in E. subst. exists [], (c_nl :: s). split; [reflexivity|]. split; [intros []|]. right. now exists s.
  - apply N.eqb_neq in E. destruct (file_lines s) as [|l ls].
    + subst. exists [c], []. split; [reflexivity|]. split; [intros [H|[]]; congruence|]. now left.
    + destruct IH as (l' & rest & -> & Ni & H). exists (c :: l'), rest. split; [reflexivity|]. split; [intros [H'|H']; [congruence|auto]|].
      destruct H as [[-> ->]|(r & -> & ->)]; [now left|right; now exists r].
Qed.

Lemma lstrip_blank_end sp s c : sp c = true -> rev (lstrip sp (rev (s ++ [c]))) = rev (lstrip sp (rev s)).
Proof. intros H. rewrite rev_app_distr. cbn [rev app lstrip]. now rewrite H. Qed.

Lemma lstrip_app_blank sp s c : sp c = true -> lstrip sp (s ++ [c]) = lstrip sp s ++ [c] \/ (lstrip sp s = [] /\ lstrip sp (s ++ [c]) = []).
Proof.
  intros H. induction s as [|x s IH]; cbn [lstrip app]; [rewrite H; now right|]. destruct (sp x); [exact IH|now left].
Qed.

Lemma strip_blank_end sp s c : sp c = true -> strip sp (s ++ [c]) = strip sp s.
Proof.
  intros H. unfold strip. destruct (lstrip_app_blank sp s c H) as [->|[-> ->]]; [|reflexivity].
  now apply lstrip_blank_end.
Qed.

Lemma nl_space w : char_isspace w c_nl = true.
Proof. reflexivity. Qed.
Lemma typed_total w stdin : exists t, typed w stdin t /\
  t = match file_lines (universal_newlines stdin) with [] => [] | l :: _ => strip (char_isspace w) l end.
Proof.
  pose proof (first_line_spec (universal_newlines stdin)) as H. destruct (file_lines (universal_newlines stdin)) as [|l ls].
  - exists []. split; [|reflexivity]. exists [], []. rewrite H. split; [reflexivity|]. split; [intros []|]. split; [now left|reflexivity].
  - destruct H as (l' & rest & E & Ni & H). exists (strip (char_isspace w) l'). split.
    + exists l', rest. split; [exact E|]. split; [exact Ni|]. split; [|reflexivity]. destruct H as [[-> _]|(r & -> & _)]; [now left|right; eauto].
    + destruct H as [[_ ->]|(r & _ & ->)]; [reflexivity|]. now rewrite strip_blank_end by apply nl_space.
Qed.

Lemma typed_fun w stdin t t' : typed w stdin t -> typed w stdin t' -> t = t'.
Proof.
  intros (l & rest & E & Nl & R & ->) (l' & rest' & E' & Nl' & R' & ->). f_equal. rewrite E in E'. clear E.
  revert l' Nl' E'. induction l as [|x l IH]; intros [|y l'] Nl' E'; cbn [app] in E'.
  - reflexivity.
  - exfalso. destruct R as [->|(r & ->)]; [discriminate|]. injection E' as E' _. apply Nl'. now left.
  - exfalso. destruct R' as [->|(r & ->)]; [discriminate|]. injection E' as E' _. apply Nl. now left.
  - injection E' as -> E'. f_equal. apply IH; [intros H; apply Nl; now right|intros H; apply Nl'; now right|exact E'].
Qed.

Lemma utf8_empty t : utf8_encode t = Ok [] -> t = [].
Proof.
  destruct t as [|c t]; [reflexivity|]. cbn [utf8_encode]. intros H. exfalso. destruct (utf8_char c) as [b|] eqn:X; [|discriminate].
  destruct (utf8_encode t); [|discriminate]. apply Ok_inj in H. apply app_eq_nil in H as [-> _].
  unfold utf8_char in X. repeat match type of X with (if ?b then _ else _) = _ => destruct b end; discriminate.
Qed.

Lemma found_get ks i : found_at ks i =
  match dict_get ks i with Some kt => (Some (kt_key kt), kt_cert kt) | None => (None, None) end.
Proof. unfold found_at, getKey, getCert. now destruct (dict_get ks i). Qed.

Lemma found_set ks j kt i : found_at (dict_set ks j kt) i = if str_eqb j i then (Some (kt_key kt), kt_cert kt) else found_at ks i.
Proof. rewrite !found_get, get_set. now destruct (str_eqb j i). Qed.

Lemma eq_or i j : i = j /\ str_eqb j i = true \/ i <> j /\ str_eqb j i = false.
Proof.
  destruct (str_eqb j i) eqn:E; [left|right]; (split; [|reflexivity]).
  - symmetry. now apply str_eqb_eq.
  - intros ->. now rewrite str_eqb_refl in E.
Qed.

Lemma cert_found ks i c : getCert ks i = Some c <-> exists k, found_at ks i = (k, Some c).
Proof.
  unfold found_at. split; [intros ->; eauto|]. intros (k & H). now injection H as _ H.
Qed.

Lemma signless_step w cmd ks ks' : (forall i, found_after w cmd ks i (found_at ks' i)) -> signless ks -> signless ks'.
Proof.
  intros H S i c G. specialize (H i). unfold found_after in H.
  assert (found_at ks' i = found_at ks i -> hd_error i <> Some c_dash) as Same.
  { intros E. apply (S i c). apply cert_found. rewrite <- E. apply cert_found, G. }
  destruct cmd; try (apply Same; exact H).
  - destruct H as (c' & _ & [[-> _]|[_ H]]); [|now apply Same]. unfold numSerialToKeyId, fmt_x, fmt_base.
    replace (Z.abs (w_serial w c') <? 0)%Z with false by lia. pose proof (digits_numeral 16 (Z.abs_N (Z.abs (w_serial w c'))) ltac:(lia)) as D.
    apply (numeral_no_dash _ _ _ D).
  - destruct H as (k & _ & [[-> E]|[_ H]]); [|now apply Same]. unfold found_at in E. injection E as _ E. congruence.
  - destruct H as [[-> E]|[_ H]]; [|now apply Same]. unfold found_at in E. injection E as _ E. congruence.
Qed.

Theorem store_commands w cmd file ks key : pem_ok w -> opens w file ks key -> signless ks -> changing cmd ->
  (forall r, key_store_py w cmd file = Ok r -> snd r = [] /\ exists ks' key', opens w (file_after file r) ks' key' /\ signless ks'
     /\ (forall i, found_after w cmd ks i (found_at ks' i)) /\ key_after w cmd key key')
  /\ ((exists r, key_store_py w cmd file = Ok r) <-> valid_command w cmd).
Proof.
  intros P O S Ch. destruct (opens_ok _ _ _ _ O) as (F & N & B). pose proof O as [Or Ok_].
  assert (forall ks' key', Forall (read_ok w) ks' -> NoDup (map fst ks') -> (forall k, key' = Some k -> is_bytes k) ->
    (forall i, found_after w cmd ks i (found_at ks' i)) -> key_after w cmd key key' ->
    exists ks1 key1, opens w (written_store w ks' key') ks1 key1 /\ signless ks1
      /\ (forall i, found_after w cmd ks i (found_at ks1 i)) /\ key_after w cmd key key1) as Wr.
  { intros ks' key' F' N' B' A K. pose proof (signless_step _ _ _ _ A S) as S'. exists ks', key'.
    split; [now apply written_opens|]. now split. }
  destruct cmd as [| |pem|pem j|j| |stdin| | |]; try contradiction; unfold key_store_py; rewrite Or, Ok_; cbn [bind].
  - (* addCert *)
    unfold putPEMCert. destruct (loadCert w pem) as [c|x] eqn:L; cbn [bind].
    + split; [|split; [intros _; exists c; exact L|eauto]]. intros r H. apply Ok_inj in H. subst r. split; [reflexivity|].
      apply Wr; [|now apply nodup_set|exact B| |reflexivity].
      * apply set_Forall; [exact F|]. unfold read_ok. cbn [snd kt_cert fst kt_key]. split; [now exists (Z.abs (w_serial w c))|].
        split; [reflexivity|]. now apply load_Ok_cert in L.
      * intros i. exists c. split; [exact L|]. rewrite found_set. cbn [kt_key kt_cert]. destruct (eq_or i (numSerialToKeyId (w_serial w c))) as [[E ->]|[E ->]]; auto.
    + split; [discriminate|]. cbn [valid_command]. split; [intros (r & H); discriminate|intros (c & H); congruence].
  - (* addKey *)
    unfold putPEMKey. destruct (loadPubKey w pem) as [k|x] eqn:L; cbn [bind].
    + split; [|split; [intros _; exists k; exact L|eauto]]. intros r H. apply Ok_inj in H. subst r. split; [reflexivity|].
      apply Wr; [|now apply nodup_set|exact B| |reflexivity].
      * apply set_Forall; [exact F|]. unfold read_ok. cbn [snd kt_cert kt_key]. now apply load_Ok_key in L.
      * intros i. exists k. split; [exact L|]. rewrite found_set. cbn [kt_key kt_cert]. destruct (eq_or i j) as [[E ->]|[E ->]]; auto.
    + split; [discriminate|]. cbn [valid_command]. split; [intros (r & H); discriminate|intros (c & H); congruence].
  - (* del *)
    split; [|split; [intros _; exact I|eauto]]. intros r H. apply Ok_inj in H. subst r. split; [reflexivity|].
    apply Wr; [now apply del_Forall|now apply nodup_del|exact B| |reflexivity].
    intros i. unfold found_after. rewrite (found_get (delKey ks j)). unfold delKey. rewrite get_del by exact N.
    destruct (eq_or i j) as [[E ->]|[E ->]]; [now left|]. right. split; [exact E|]. now rewrite found_get.
  - (* setKey *)
    destruct (typed_total w stdin) as (t & T & E). unfold new_symmetric_key.
    assert (forall b, utf8_encode t = Ok b ->
      (match file_lines (universal_newlines stdin) with
       | [] => Ok None
       | l :: _ => do b <- utf8_encode (strip (char_isspace w) l); match b with [] => Ok None | _ => do k <- b64decode b; Ok (Some k) end
       end) = match b with [] => Ok None | _ => do k <- b64decode b; Ok (Some k) end) as Line.
    { intros b U. destruct (file_lines (universal_newlines stdin)) as [|l ls]; subst t; [|now rewrite U].
      apply Ok_inj in U. now subst. }
    destruct (utf8_encode t) as [b|x] eqn:U.
    + rewrite (Line b eq_refl). cbn [valid_command key_after]. clear Line E. destruct b as [|b0 b].
      * apply utf8_empty in U as U'. subst t. cbn [bind]. split.
        -- intros r H. apply Ok_inj in H. subst r. split; [reflexivity|]. cbn [file_after fst]. exists ks, key. split; [exact O|]. split; [exact S|].
           split; [intros i; reflexivity|]. exists [], []. split; [exact T|]. split; [exact U|]. now left.
        -- split; [|eauto]. intros _. exists [], []. split; [exact T|]. split; [exact U|]. now exists [].
      * destruct (b64decode (b0 :: b)) as [k|x] eqn:D; cbn [bind].
        -- split.
           ++ intros r H. apply Ok_inj in H. subst r. split; [reflexivity|]. apply Wr; [exact F|exact N| | |].
              ** intros k' K. apply Some_inj in K. subst. now apply b64decode_bytes in D.
              ** intros i. reflexivity.
              ** exists t, (b0 :: b). split; [exact T|]. split; [exact U|]. right. split; [|eauto]. intros ->. discriminate.
           ++ split; [|eauto]. intros _. exists t, (b0 :: b). split; [exact T|]. split; [exact U|]. eauto.
        -- split; [discriminate|]. split; [intros (r & H); discriminate|]. intros (t' & b' & T' & U' & k & D').
           rewrite (typed_fun _ _ _ _ T' T) in U'. congruence.
    + assert ((match file_lines (universal_newlines stdin) with
       | [] => Ok None
       | l :: _ => do b <- utf8_encode (strip (char_isspace w) l); match b with [] => Ok None | _ => do k <- b64decode b; Ok (Some k) end
       end) = Err x) as Line'.
      { destruct (file_lines (universal_newlines stdin)) as [|l ls]; subst t; [discriminate|]. now rewrite U. }
      rewrite Line'. cbn [bind]. split; [discriminate|]. split; [intros (r & H); discriminate|]. intros (t' & b' & T' & U' & k & D').
      rewrite (typed_fun _ _ _ _ T' T) in U'. congruence.
  - (* delKey *)
    split; [|split; [intros _; exact I|eauto]]. intros r H. apply Ok_inj in H. subst r. split; [reflexivity|].
    apply Wr; [exact F|exact N|discriminate| |reflexivity]. intros i. reflexivity.
Qed.

(** The other commands leave the file alone. *)
Theorem store_output w file ks key : opens w file ks key ->
  (exists ids, key_store_py w K_list file = Ok (None, List.concat (map (fun i => i ++ [c_nl]) ids))
     /\ NoDup ids /\ forall i, In i ids <-> getKey ks i <> None)
  /\ (forall k, key = Some k -> key_store_py w K_showKey file = Ok (None, b64encode k ++ [c_nl]))
  /\ (key = None -> key_store_py w K_showKey file = Ok (None, lit "No symmetric key present." ++ [c_nl])).
Proof.
  intros O. destruct (opens_ok _ _ _ _ O) as (F & N & B). destruct O as [R K]. unfold key_store_py. rewrite R, K. cbn [bind].
  split; [|split; intros; now subst].
  exists (map fst ks). rewrite map_map. split; [reflexivity|]. split; [exact N|]. intros i. unfold getKey.
  destruct (dict_get ks i) eqn:G; cbn [option_map].
  - split; [discriminate|]. intros _. destruct (in_dec (list_eq_dec N.eq_dec) i (map fst ks)) as [H|H]; [exact H|].
    apply get_none in H. congruence.
  - apply get_none in G. split; [contradiction|]. intros H. now destruct H.
Qed.

Theorem store_create w file : pem_ok w -> exists file', key_store_py w K_create file = Ok (Some file', []) /\ opens w file' [] None.
Proof.
  intros P. eexists. split; [reflexivity|]. apply written_opens; [exact P|constructor|constructor| |discriminate].
  intros i c H. discriminate.
Qed.
