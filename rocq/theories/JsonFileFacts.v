(** Files of JSON texts that the programs write and read. *)
From Coq Require Import Floats.SpecFloat Lia ZifyClasses ZifyN ZifyNat ZifyBool.
From Verif Require Import PyBase World Codec PyFloat Receipt Json Pem KeyStore State DepBase DepParser DepExport
  SpecKeys SpecDoc SpecClean SpecState SpecStore ListFacts CodecFacts CodecFacts2 PemFacts KeyFacts StateFacts KeyStoreCliFacts CleanFacts
  JsonText SpecJsonText JsonTextFacts JsonWriteFacts.
Open Scope N_scope.

Lemma encodes_no_pairs s b : utf8_encode s = Ok b -> no_pairs s.
Proof.
  assert (C : forall b, utf8_encode s = Ok b -> Forall (fun c => c < 0x110000 /\ ~ (0xD800 <= c < 0xE000)) s).
  { induction s as [|c s IH]; intros b'; [constructor|]. cbn [utf8_encode]. destruct (utf8_char c) as [x|] eqn:U; [|discriminate].
    destruct (utf8_encode s) as [bs|] eqn:E; [|discriminate]. intros _. constructor; [|now apply (IH bs)].
    unfold utf8_char in U. destruct (c <? 128) eqn:?; [lia|]. destruct (c <? 2048) eqn:?; [lia|].
    destruct (c <? 65536) eqn:?; [destruct ((55296 <=? c) && (c <? 57344)) eqn:?; [discriminate|lia]|].
    destruct (c <? 1114112) eqn:?; [lia|discriminate]. }
  intros H. apply C in H. split; [eapply Forall_impl; [|exact H]; cbn; tauto|].
  intros a u v d -> [U _]. apply Forall_app in H. destruct H as [_ H]. apply Forall_inv in H. unfold is_high in U. lia.
Qed.

Lemma occurs_writable fr v : no_floats v -> (forall s, occurs v s -> exists b, utf8_encode s = Ok b) -> writable fr v.
Proof.
  induction v as [|b|z|x|s|l IH|d IH] using json_ind2; intros NF O; try constructor.
  - inversion NF.
  - destruct (O s) as (b & E); [constructor|]. now apply (encodes_no_pairs s b).
  - assert (F : Forall no_floats l) by now inversion NF. rewrite Forall_forall in *. intros x Hx. apply IH; [exact Hx|now apply F|].
    intros s Hs. apply O. now apply (occurs_list l x).
  - assert (F : Forall (fun kv => no_floats (snd kv)) d) by now inversion NF. rewrite Forall_forall in *. intros [k x] Hx. cbn [fst snd]. split.
    + destruct (O k) as (b & E); [now apply (occurs_name d k x)|]. now apply (encodes_no_pairs k b).
    + apply (IH _ Hx); [exact (F _ Hx)|]. intros s Hs. apply O. now apply (occurs_dict d k x).
Qed.

(** Documents with ASCII names *)
Inductive ascii_names : json -> Prop :=
| an_null : ascii_names JNull
| an_bool b : ascii_names (JBool b)
| an_int z : ascii_names (JInt z)
| an_str s : ascii_names (JStr s)
| an_list l : Forall ascii_names l -> ascii_names (JList l)
| an_dict d : Forall (fun kv => forallb (fun c => c <? 128) (fst kv) = true /\ ascii_names (snd kv)) d -> ascii_names (JDict d).

Lemma ascii_encodes s : forallb (fun c => c <? 128) s = true -> utf8_encode s = Ok s.
Proof. intros H. apply utf8_encode_ascii. rewrite forallb_forall in H. apply Forall_forall. intros c I. apply H in I. lia. Qed.

Lemma names_writable fr v : ascii_names v -> texts_encode v -> writable fr v.
Proof.
  induction v as [|b|z|x|s|l IH|d IH] using json_ind2; intros NF O; try constructor.
  - inversion NF.
  - destruct (O s) as (b & E); [constructor|]. now apply (encodes_no_pairs s b).
  - assert (F : Forall ascii_names l) by now inversion NF. rewrite Forall_forall in *. intros x Hx. apply IH; [exact Hx|now apply F|].
    intros s Hs. apply O. now apply (SpecDoc.text_list l x).
  - assert (F : Forall (fun kv => forallb (fun c => c <? 128) (fst kv) = true /\ ascii_names (snd kv)) d) by now inversion NF.
    rewrite Forall_forall in *. intros [k x] Hx. destruct (F _ Hx) as [K Fx]. cbn [fst snd] in *. split.
    + now apply (encodes_no_pairs k k), ascii_encodes.
    + apply (IH _ Hx); [exact Fx|]. intros s Hs. apply O. now apply (SpecDoc.text_dict d k x).
Qed.

(** ** States *)

Lemma jopt_names o : ascii_names (jopt o).
Proof. destruct o; constructor. Qed.

Lemma strings_names (l : list str) : Forall ascii_names (map JStr l).
Proof. apply Forall_forall. intros x H. apply in_map_iff in H. destruct H as (s & <- & _). constructor. Qed.

Ltac names := repeat (apply Forall_cons; [split; [reflexivity|]|]); try apply Forall_nil.

Lemma cluster_names c : ascii_names (cluster_to_json c).
Proof.
  unfold cluster_to_json. constructor. names; cbn [snd].
  - constructor. apply Forall_forall. intros x H. apply in_map_iff in H. destruct H as (r & <- & _).
    unfold regstate_to_dict. constructor. names; cbn [snd]; try apply jopt_names; constructor.
  - unfold used_to_json. destruct (c_used c); constructor; names; cbn [snd]; try constructor.
    + apply strings_names.
    + names; cbn [snd]; apply jopt_names.
Qed.

Theorem state_text fr ind c : wf_used (c_used c) -> texts_encode (cluster_to_json c) ->
  exists j, readJsonStream (dumps fr ind (cluster_to_json c)) = Some j /\ cluster_of_json j = Ok c.
Proof.
  intros W T. exists (load (cluster_to_json c)). split; [|now apply cluster_file_roundtrip].
  apply read_dumps. now apply names_writable; [apply cluster_names|].
Qed.

(** ** Key stores *)

Lemma data_encodes s : pem_data s -> utf8_encode s = Ok s.
Proof. intros D. apply utf8_encode_ascii. eapply Forall_impl; [|exact D]. intros c. unfold pem_char. lia. Qed.

Lemma cert_encodes w c t : pem_ok w -> w_load_cert w t = Some c -> exists b, utf8_encode (exportCertToPEM w c) = Ok b.
Proof.
  intros [K _] L. destruct (codec_reload _ _ _ _ _ cert_label_unbroken K L) as (s & E & D & _). exists s. unfold exportCertToPEM. rewrite E.
  now apply data_encodes.
Qed.
Lemma key_encodes w k t : pem_ok w -> w_load_pubkey w t = Some k -> exists b, utf8_encode (exportKeyToPEM w k) = Ok b.
Proof.
  intros [_ K] L. destruct (codec_reload _ _ _ _ _ key_label_unbroken K L) as (s & E & D & _). exists s. unfold exportKeyToPEM. rewrite E.
  now apply data_encodes.
Qed.

Lemma writable_text fr s : (exists b, utf8_encode s = Ok b) -> writable fr (JStr s).
Proof. intros (b & E). constructor. now apply (encodes_no_pairs s b). Qed.

Lemma entry_writable fr w e : pem_ok w -> entry_ok w e -> (exists b, utf8_encode (fst e) = Ok b) ->
  writable fr (entry_to_json w (fst e) (snd e)).
Proof.
  intros P E I. unfold entry_to_json, entry_ok in *.
  assert (K : forall k, forallb (fun c => c <? 128) k = true -> no_pairs k) by (intros k H; now apply (encodes_no_pairs k k), ascii_encodes).
  assert (T : forall s, forallb (fun c => c <? 128) s = true -> writable fr (JStr s)) by (intros s H; constructor; now apply K).
  destruct (kt_cert (snd e)) as [c|].
  - destruct E as (_ & _ & (t & L)). constructor.
    constructor; [split; [now apply K|now apply writable_text]|]. constructor; [split; [now apply K|now apply T]|].
    constructor; [split; [now apply K|apply writable_text; now apply (cert_encodes w c t)]|constructor].
  - destruct E as (t & L). constructor.
    constructor; [split; [now apply K|now apply writable_text]|]. constructor; [split; [now apply K|now apply T]|].
    constructor; [split; [now apply K|apply writable_text; now apply (key_encodes w _ t)]|constructor].
Qed.

Theorem store_text fr ind w ops key : pem_ok w -> Forall from_pem ops ->
  (forall i kt, In (i, kt) (store_run w ops) -> exists b, utf8_encode i = Ok b) ->
  (forall k, key = Some k -> exists b, utf8_encode k = Ok b) ->
  exists j, readJsonStream (dumps fr ind (writeStoreToJson w (store_run w ops) key)) = Some j
    /\ readStoreFromJson w j = Ok (store_run w ops)
    /\ loadKeyFromJson j = loadKeyFromJson (writeStoreToJson w (store_run w ops) key).
Proof.
  intros P F I K. exists (load (writeStoreToJson w (store_run w ops) key)). split.
  - apply read_dumps. unfold writeStoreToJson.
    assert (N : forall k, forallb (fun c => c <? 128) k = true -> no_pairs k) by (intros k H; now apply (encodes_no_pairs k k), ascii_encodes).
    constructor. constructor.
    + split; [now apply N|]. cbn [snd]. constructor. pose proof (run_entries w ops F) as R. rewrite Forall_forall in *.
      intros x Hx. apply in_map_iff in Hx. destruct Hx as ([i kt] & <- & Hx). cbn [fst snd]. pose proof (I _ _ Hx) as (b & E).
      split; [now apply (encodes_no_pairs i b)|]. apply (entry_writable fr w (i, kt)); [exact P|now apply R|now exists b].
    + destruct key as [k|]; [|constructor]. constructor; [|constructor]. split; [now apply N|]. apply writable_text. now apply K.
  - rewrite load_store by apply run_nodup. split; [now apply store_json|reflexivity].
Qed.

(** ** DEPs *)

Lemma group_names w g j : exportGroup w g = Ok j -> ascii_names j.
Proof.
  unfold exportGroup. intros H. apply bind_Ok in H as (recs & _ & H). apply Ok_inj in H. subst j. constructor. names; cbn [snd].
  - constructor.
  - constructor. rewrite <- (map_map (exportCertToPEM w) JStr). apply strings_names.
  - constructor. apply strings_names.
Qed.

Theorem export_text fr ind w s dep : export w s [] = Ok dep -> texts_encode dep ->
  readJsonStream (dumps fr ind dep) = Some (load dep).
Proof.
  intros H T. apply read_dumps. apply names_writable; [|exact T]. unfold export in H. apply bind_Ok in H as (gs & M & H).
  destruct (snd s); [discriminate|]. apply Ok_inj in H. subst dep. unfold with_extra. cbn [fold_left]. constructor. names. cbn [snd].
  constructor. apply Forall_forall. intros j Hj. destruct (CleanFacts.mapM_In _ _ _ _ M Hj) as (g & _ & E). now apply group_names in E.
Qed.

Theorem full_iff w n text size :
  (forall v t, document v t -> text = t \/ text = 0xFEFF :: t -> parse_full w n text size = parse_dict w n (load v) size)
  /\ ((forall v t, document v t -> text <> t /\ text <> 0xFEFF :: t) -> parse_full w n text size = ([], Some DEPParseError)).
Proof.
  unfold parse_full. split.
  - intros v t D E. assert (R : readJsonStream text = Some (load v)) by (apply read_stream_iff; now exists v, t). now rewrite R.
  - intros N. destruct (readJsonStream text) as [j|] eqn:R; [|reflexivity]. apply read_stream_iff in R.
    destruct R as (v & t & D & E & _). destruct (N v t D) as [N1 N2]. destruct E; contradiction.
Qed.
