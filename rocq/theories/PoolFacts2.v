(** Verification with worker processes ends, if the key is usable. *)
From Coq Require Import Lia ZifyClasses ZifyN ZifyNat ZifyBool.
From Verif Require Import PyBase World Codec PyFloat PyTime Algo Receipt DepBase Json Pem KeyStore VerifyReceipt State DepParser Verify Cli
  ListFacts CodecFacts CodecFacts2 SpecReceipt ReceiptFacts RoundTrip RoundTrip2 SpecDep VerifyFacts DepFacts SpecKeys KeyFacts SpecCluster ClusterFacts SpecDoc AcceptFacts CounterFacts
  IncFacts IncTheorems StepFacts SpecAmount AmountFacts SpecClean ParFacts CleanFacts CleanParFacts KeyStoreCli KeyStoreCliFacts CertExtractFacts SpecPool Pool PoolFacts.
Open Scope N_scope.
Open Scope py_scope.

(** ** The certificates of the parsers *)
Definition group_read (w : world) (g : dgroup) : Prop := forall c, g_cert g = Some c -> cert_read w c.

Lemma parsed_read w s c : parseDEPCert w s = Ok c -> cert_read w c.
Proof.
  unfold parseDEPCert, catch. destruct (loadCert w (addPEMCertHeaders s)) as [x|x] eqn:L; [|destruct (value_error x); discriminate].
  intros H. apply Ok_inj in H. subst x. unfold loadCert in L. apply bind_Ok in L as (b & _ & L).
  destruct (w_load_cert w b) eqn:E; [|discriminate]. apply Ok_inj in L. subst. now exists b.
Qed.
Lemma parsedJ_read w j c : parseDEPCertJ w j = Ok c -> cert_read w c.
Proof. unfold parseDEPCertJ. destruct j; try discriminate. apply parsed_read. Qed.
Lemma opt_read w j o c : opt_cert w j = Ok o -> o = Some c -> cert_read w c.
Proof.
  intros H ->. assert (parseDEPCertJ w j = Ok c) as P; [|now apply parsedJ_read in P].
  unfold opt_cert in H. destruct j as [| | | |[|a t]| |]; try discriminate;
    apply bind_Ok in H as (x & H & E); apply Ok_inj, Some_inj in E; now subst x.
Qed.

Lemma parsed_group_read w g recs o l : parseDEPGroup w g = Ok (recs, o, l) -> forall c, o = Some c -> cert_read w c.
Proof.
  unfold parseDEPGroup. intros H c E. destruct g as [| | | | | |d]; try discriminate.
  destruct (dict_get d k_recs) as [jr|]; [|discriminate]. destruct (dict_get d k_cert) as [jc|]; [|discriminate]. destruct (dict_get d k_certs) as [jl|]; [|discriminate].
  apply bind_Ok in H as (rs & _ & H). destruct jc; try discriminate. destruct jl; try discriminate. apply bind_Ok in H as (o' & O & H).
  apply bind_Ok in H as (ch & _ & H). apply Ok_inj in H. injection H as _ <- _. exact (opt_read _ _ _ _ O E).
Qed.

Lemma gen_recs_read w n c l recs : forall chunk_ len next, (forall x, c = Some x -> cert_read w x) -> Forall (group_read w) chunk_ ->
  Forall (Forall (group_read w)) (fst (gen_recs n c l recs chunk_ len next))
  /\ forall chunk' len' next', snd (gen_recs n c l recs chunk_ len next) = Ok (chunk', len', next') -> Forall (group_read w) chunk'.
Proof.
  induction recs as [|j recs IH]; intros chunk_ len next Hc F; cbn [gen_recs].
  - cbn [fst snd]. split; [constructor|]. intros ch ln nx H. apply Ok_inj in H. injection H as <- _ _. exact F.
  - destruct (shrinkJ j) as [b|x]; cbn [fst snd]; [|split; [constructor|discriminate]]. cbv zeta.
    destruct (n <=? S len)%nat; [|now apply IH]. destruct (IH [] 0%nat [] Hc (Forall_nil _)) as [A B]. cbn [fst snd]. split; [|exact B].
    constructor; [|exact A]. apply Forall_app. split; [exact F|]. constructor; [|constructor]. intros x E. now apply Hc.
Qed.
Lemma gen_chunks_read w n groups : forall chunk_ len, Forall (group_read w) chunk_ -> Forall (Forall (group_read w)) (fst (gen_chunks w n groups chunk_ len)).
Proof.
  induction groups as [|g groups IH]; intros chunk_ len F; cbn [gen_chunks].
  - destruct (0 <? len)%nat; cbn [s_cons s_end fst]; repeat constructor. exact F.
  - destruct (parseDEPGroup w g) as [[[recs c] l]|x] eqn:P; [|constructor].
    destruct (gen_recs_read w n c l recs chunk_ len [] (parsed_group_read _ _ _ _ _ P) F) as [A B].
    destruct (gen_recs n c l recs chunk_ len []) as [done [[[ch ln] nx]|x]]; cbn [fst snd] in *; [|exact A]. cbv zeta. cbn [fst].
    apply Forall_app. split; [exact A|]. apply IH. specialize (B ch ln nx eq_refl). destruct nx; [exact B|].
    apply Forall_app. split; [exact B|]. constructor; [|constructor]. exact (parsed_group_read _ _ _ _ _ P).
Qed.
Lemma gen_groups_read w groups : Forall (Forall (group_read w)) (fst (gen_groups w groups)).
Proof.
  induction groups as [|g groups IH]; cbn [gen_groups]; [constructor|].
  destruct (do p <- parseDEPGroup w g; do recs <- mapM shrinkJ (fst (fst p)); Ok (DGroup recs (snd (fst p)) (snd p))) as [dg|x] eqn:E; [|constructor].
  destruct (g_recs dg) as [|b0 bs] eqn:Er; [exact IH|]. cbn [s_cons fst].
  constructor; [|exact IH]. constructor; [|constructor]. apply bind_Ok in E as ([[recs c] l0] & P & E). apply bind_Ok in E as (rs & _ & E).
  apply Ok_inj in E. subst dg. exact (parsed_group_read _ _ _ _ _ P).
Qed.

Lemma dict_read w nparts dep n : certs_read w (parse_dict w nparts dep n).
Proof.
  unfold certs_read, parse_dict. change (Forall (Forall (group_read w)) (fst (parse_dict w nparts dep n))). unfold parse_dict.
  destruct dep as [| | | | | |d]; try constructor. destruct (dict_get d k_bg) as [[| | | | |[|g gs]|]|]; try constructor. cbv zeta.
  set (m := if (1 <? nparts)%nat && (n =? 0)%nat then _ else n).
  assert (Forall (Forall (group_read w)) (fst (groupChunkGen w m (g :: gs)))) as F.
  { unfold groupChunkGen. destruct (m =? 0)%nat; [apply gen_groups_read|apply gen_chunks_read; constructor]. }
  destruct (groupChunkGen w m (g :: gs)) as [[|c cs] [e|]]; exact F.
Qed.

Lemma need_read w kind doc i d d' : certs_in (cert_read w) d -> needCerts w kind doc i d = Ok d' -> certs_in (cert_read w) d'.
Proof.
  intros (A & B & C) H. destruct kind; cbn [needCerts] in H; [discriminate|apply Ok_inj in H; subst; now split|].
  apply bind_Ok in H as (cs & _ & H). apply bind_Ok in H as (cl & _ & H). apply bind_Ok in H as (o & O & H). apply bind_Ok in H as (l & _ & H).
  apply bind_Ok in H as (ch & M & H). apply Ok_inj in H. subst d'. split; cbn [d_cert d_chain d_chunk]; [intros c; exact (opt_read _ _ _ _ O)|].
  split; [|exact C]. intros l' E. apply Some_inj in E. subst l'. apply mapM_Ok in M. clear -M. induction M as [|j c l ch H M IH]; constructor; [|exact IH].
  now apply parsedJ_read in H.
Qed.
Lemma loop_read w kind doc n evs : forall d got, certs_in (cert_read w) d ->
  Forall (Forall (group_read w)) (fst (inc_loop w kind doc n evs d got)).
Proof.
  assert (forall l, Forall (fun g => Forall (cert_read w) (group_certs g)) l -> Forall (group_read w) l) as X.
  { intros l F. eapply Forall_impl; [|exact F]. intros g H c E. unfold group_certs in H. rewrite E in H. apply Forall_app in H as [_ H]. exact (Forall_inv H). }
  induction evs as [|[p e] evs IH]; intros d got C; cbn [inc_loop].
  - destruct (get_certs _ (d_mode d) d C) as [G _]. apply X in G. destruct (fst (getChunk (d_mode d) d)) as [|g l].
    + destruct got; constructor.
    + cbn [s_cons s_end fst]. constructor; [exact G|constructor].
  - destruct (d_parse w d p e) as [d'|x] eqn:P; [|constructor]. cbv zeta.
    assert (certs_in (cert_read w) d') as C'.
    { apply (step_certs w _ d p e d' C); [|exact P]. intros s c -> H. now apply parsed_read in H. }
    destruct (d_ready (d_mode d) n d'); [|now apply IH].
    destruct (match needCrt (d_mode d) d' with None => Ok d' | Some i => needCerts w kind doc i d' end) as [d2|x] eqn:N; [|constructor].
    assert (certs_in (cert_read w) d2) as C2.
    { destruct (needCrt (d_mode d) d') as [i|]; [exact (need_read _ _ _ _ _ _ C' N)|]. apply Ok_inj in N. now subst. }
    destruct (get_certs _ (d_mode d) d2 C2) as [G1 G2]. cbn [s_cons fst]. constructor; [now apply X|]. now apply IH.
Qed.
Lemma inc_read w kind doc n : certs_read w (parse_inc w kind doc n).
Proof. apply loop_read. split; [discriminate|]. split; [discriminate|constructor]. Qed.

Lemma read_store w j ks : cert_keys_ok w -> readStoreFromJson w j = Ok ks -> store_read w ks.
Proof.
  intros CK H. unfold readStoreFromJson in H. destruct j as [| | | | | |d]; try discriminate.
  destruct (dict_get d k_map) as [[| | | | | |m]|]; try discriminate.
  destruct (read_entries_ok _ _ _ _ H ltac:(constructor) ltac:(constructor)) as [F _]. eapply Forall_impl; [|exact F].
  intros [i [k c]] R. unfold read_ok in R. cbn [fst snd kt_key kt_cert] in *. destruct c as [c|].
  - destruct R as (_ & -> & T). split; [now apply CK|]. intros c' E. apply Some_inj in E. subst. exact T.
  - split; [exact R|discriminate].
Qed.

(** ** Usable keys *)
Section Usable.
Context (w : world) (key : option bytes) (UK : usable_key key).
Let P (e : exn) : Prop := e <> InvalidKey.

Lemma PV e : verdict e -> P e.
Proof. intros V ->. exact V. Qed.
Lemma PK k : key = Some k -> List.length k <> 32%nat -> P InvalidKey.
Proof. intros E N. exfalso. now apply N, UK. Qed.
Lemma all_summed cr : summed w P key cr.
Proof. intros t r _ _ _ e E ->. apply cents_err in E as [E|E]; discriminate. Qed.
Lemma summed_groups {A} (f : A -> list bytes) l : Forall (fun g => Forall (summed w P key) (f g)) l.
Proof. apply Forall_forall. intros g _. apply Forall_forall. intros cr _. apply all_summed. Qed.

Context (PW : pem_ok w) (b0 : backend) (ps : option str) (Hps : forall t, ps = Some t -> encodable t).
Let U (u : used) : Prop := backend_of u = b0.
Local Notation lasts reg := (forall t, s_last reg = Some t -> encodable t).

Lemma HU u i : U u -> U (used_add u i).
Proof. unfold U. now rewrite backend_add. Qed.
Lemma Hck u i : U u -> raises P (used_check w u i).
Proof. intros _. apply used_check_raises; [exact PV|]. intros a b _. now split. Qed.
Lemma HM u v : U u -> U v -> raises P (used_merge1 w u v) /\ forall u', used_merge1 w u v = Ok u' -> U u'.
Proof.
  unfold U. intros K1 K2. destruct (merge1_raises P w u v PV) as [A B]; [now split|congruence|].
  split; [exact A|]. intros u' E. rewrite (B u' E). exact K1.
Qed.

Lemma batch_ends sch pkgs : sendable_task w pkgs -> Forall (task_ready w P key) pkgs -> pool_batch w sch key ps b0 pkgs = Some (run_batch w sch key ps b0 pkgs).
Proof.
  intros S R. destruct (batch_cases w PW key ps sch b0 pkgs S) as [E|(_ & _ & t & I & E)]; [exact E|]. exfalso.
  assert (Forall (Forall (task_ready w P key)) (slices (task_size (sch_pool sch) (List.length pkgs)) pkgs)) as F by now apply slices_fuel_Forall.
  destruct (run_task_raises w P PV key PK U HU Hck ps Hps t (used_new b0)) as [A _]; [destruct b0; reflexivity|exact (proj1 (Forall_forall _ _) F t I)|].
  now apply (A InvalidKey E).
Qed.
Lemma collect_ends sch pkgs u : sendable_task w pkgs -> Forall (task_ready w P key) pkgs -> pool_collect w sch key ps b0 pkgs u = Some (collect w sch key ps b0 pkgs u).
Proof. intros S R. unfold pool_collect, collect. now rewrite (batch_ends sch pkgs S R). Qed.

Lemma batches_end sch ks e batches : sch_pool sch <> Some 0%nat -> store_read w ks -> Forall (fun cs => cs <> [] /\ Forall (Forall (group_read w)) cs) batches ->
  forall pending reg u, lasts reg -> U u -> (forall p, pending = Some p -> p <> [] /\ sendable_task w p /\ Forall (task_ready w P key) p) ->
  pool_batches w sch ks key ps b0 batches e pending reg u = Some (par_batches w sch ks key ps b0 batches e pending reg u).
Proof.
  intros Po S F. induction F as [|cs batches [NE F1] F IH]; intros pending reg u Hl Hu Hp; cbn [pool_batches par_batches].
  - destruct e as [x|]; [reflexivity|]. destruct pending as [p|]; [|reflexivity]. destruct (Hp p eq_refl) as (_ & Sp & Rp). now apply collect_ends.
  - destruct (mapM (packageChunkWithVerifiers w ks) cs) as [pkgs|x] eqn:Ek; cbn [bind]; [|reflexivity].
    set (m := match pending with None => Ok (reg, u) | Some p => collect w sch key ps b0 p u end).
    set (o := match pending with None => Some (Ok (reg, u)) | Some p => pool_collect w sch key ps b0 p u end).
    assert (o = Some m) as ->.
    { subst o m. destruct pending as [p|]; [|reflexivity]. destruct (Hp p eq_refl) as (_ & Sp & Rp). now apply collect_ends. }
    assert (forall ru, m = Ok ru -> lasts (fst ru) /\ U (snd ru)) as R.
    { subst m. destruct pending as [p|].
      - destruct (Hp p eq_refl) as (Np & _ & Rp). apply (collect_raises w P PV key PK U HU Hck ps Hps HM sch b0 p u Hu); [destruct b0; reflexivity|exact Np|exact Po|exact Rp].
      - intros ru E. apply Ok_inj in E. now subst ru. }
    destruct m as [ru|x]; cbn [bind]; [|reflexivity]. destruct (R ru eq_refl) as [Hl' Hu']. clear R.
    destruct (predict w key (fst ru) pkgs) as [wargs|x] eqn:Ew; cbn [bind]; [|reflexivity].
    apply IH; [exact Hl'|exact Hu'|]. intros p X. apply Some_inj in X. subst p. split; [|split].
    + intros ->. apply predict_length in Ew. apply mapM_Ok, Forall2_length in Ek. destruct cs; [congruence|]. destruct pkgs; discriminate.
    + pose proof (packages_sendable w ks cs pkgs S F1 Ek) as G. apply predict_fst in Ew. rewrite <- Ew in G. rewrite Forall_map in G. exact G.
    + apply (ready w P PV key PK pkgs wargs (fst ru)); [exact Hl'|exact (package_all_proper _ _ _ _ Ek)| |exact Ew].
      apply Forall_forall. intros pk _. apply summed_groups.
Qed.
End Usable.

Theorem pool_ends w sch s ks key c idx : pem_ok w -> store_read w ks -> certs_read w s -> usable_key key -> state_encodes c -> sch_pool sch <> Some 0%nat ->
  verifyWithPool w sch s ks key c idx = Some (verifyParsedDEP w sch s ks key c idx).
Proof.
  intros PW S F UK Sc Po. unfold verifyWithPool, verifyParsedDEP, with_register.
  destruct (getCashRegisterInfo c idx) as [c1 [[[ps reg] u]|x]] eqn:G; cbn [bind]; [|reflexivity].
  apply get_inv in G as (before & reg' & after & Sl & E & ->). injection E as -> -> ->.
  assert (opt_encodes (start_of_last before) /\ opt_encodes (s_last reg')) as [E1 E2].
  { assert (Forall (fun r => opt_encodes (s_start r) /\ opt_encodes (s_last r)) (before ++ [reg'])) as Fr.
    { destruct Sl as [before reg' after E|idx D T].
      - unfold state_encodes in Sc. rewrite E in Sc. apply Forall_app in Sc as [S1 S2]. apply Forall_app. split; [exact S1|]. constructor; [exact (Forall_inv S2)|constructor].
      - apply Forall_app. split; [exact Sc|]. constructor; [split; discriminate|constructor]. }
    apply Forall_app in Fr as [F1 F2]. split; [|exact (proj2 (Forall_inv F2))]. unfold start_of_last. clear -F1.
    destruct (rev before) as [|r l] eqn:R; [discriminate|]. assert (In r before) as I by (apply in_rev; rewrite R; now left).
    exact (proj1 (proj1 (Forall_forall _ _) F1 r I)). }
  unfold par_body, getChunksForProcs. rewrite (batches_end w key UK PW (backend_of (c_used c)) (start_of_last before) E1 sch ks).
  - reflexivity.
  - exact Po.
  - exact S.
  - now apply chunks_for_procs_batches.
  - exact E2.
  - reflexivity.
  - discriminate.
Qed.

(** ** The program *)
Lemma stream_read w a dep : certs_read w (if (va_chunksize a =? 0)%nat then parse_dict w (va_par a) (load dep) (va_chunksize a)
       else parse_inc w P_file dep (va_chunksize a)).
Proof. destruct (_ =? 0)%nat; [apply dict_read|apply inc_read]. Qed.

Theorem mode_ends w pick a dep ks key c idx : pem_ok w -> store_read w ks -> usable_key key -> state_encodes c ->
  pool_mode w pick a dep ks key c idx = Some (verify_mode w pick a dep ks key c idx).
Proof.
  intros PW S UK Sc. unfold pool_mode, verify_mode. destruct (1 <? va_par a)%nat eqn:E; [|reflexivity].
  apply pool_ends; try assumption; [apply stream_read|]. cbn [sch_pool]. apply Nat.ltb_lt in E. intros X. apply Some_inj in X. lia.
Qed.
Theorem mode_cases w pick a dep ks key c idx : pem_ok w -> store_read w ks ->
  pool_mode w pick a dep ks key c idx = Some (verify_mode w pick a dep ks key c idx)
  \/ (pool_mode w pick a dep ks key c idx = None /\ (1 < va_par a)%nat /\ snd (verify_mode w find_key a dep ks key c idx) = Some InvalidKey).
Proof.
  intros PW S. unfold pool_mode, verify_mode. destruct (1 <? va_par a)%nat eqn:E; [|now left]. apply Nat.ltb_lt in E.
  destruct (pool_cases w (Schedule (Some (va_par a)) (va_par a) pick) _ ks key c idx PW S (stream_read w a dep)) as [H|(H & _ & K)]; [now left|right; auto].
Qed.

(** States without lone surrogates *)
Lemma opt_text_in j s t : opt_text j = Ok s -> s = Some t -> text_in j t.
Proof. intros H ->. destruct j; cbn [opt_text] in H; try discriminate. apply Ok_inj, Some_inj in H. subst. constructor. Qed.
Lemma state_texts j c : cluster_of_json j = Ok c -> texts_encode j -> state_encodes c.
Proof.
  intros H T. unfold cluster_of_json in H. destruct j as [| | | | | |d]; try discriminate.
  destruct (dict_get d k_regs) as [[| | | | |l|]|] eqn:G; try discriminate. destruct (dict_get d k_used) as [ju|]; [|discriminate].
  apply bind_Ok in H as (regs & M & H). apply bind_Ok in H as (u & _ & H). apply Ok_inj in H. subst c. unfold state_encodes. cbn [c_regs].
  apply Forall_forall. intros r Hr. destruct (mapM_In _ _ _ _ M Hr) as (x & Hx & Sx). destruct x as [| | | | | |e]; try discriminate.
  assert (forall k j t, dict_get e k = Some j -> text_in j t -> exists b, utf8_encode t = Ok b) as X.
  { intros k j t E I. apply T. apply (text_dict d k_regs (JList l)); [now apply dict_get_In|]. apply (text_list _ (JDict e)); [exact Hx|].
    apply (text_dict e k j); [now apply dict_get_In|exact I]. }
  unfold regstate_of_dict in Sx. destruct (dict_get e k_start) as [js|] eqn:G1; [|discriminate]. destruct (dict_get e k_last) as [jl|] eqn:G2; [|discriminate].
  destruct (dict_get e k_counter); [|discriminate]. destruct (dict_get e k_restore); [|discriminate]. destruct (dict_get e k_chain); [|discriminate].
  apply bind_Ok in Sx as (s & S1 & Sx). apply bind_Ok in Sx as (t & S2 & Sx). apply bind_Ok in Sx as (z & _ & Sx). apply bind_Ok in Sx as (b & _ & Sx).
  apply bind_Ok in Sx as (n & _ & Sx). apply Ok_inj in Sx. subst r. cbn [s_start s_last].
  split; intros y E; [exact (X _ _ _ G1 (opt_text_in _ _ _ S1 E))|exact (X _ _ _ G2 (opt_text_in _ _ _ S2 E))].
Qed.
Lemma state_file_encodes b a stdin c : texts_encode stdin -> read_state b a stdin = Ok c -> state_encodes c.
Proof.
  unfold read_state. intros T. destruct (va_state a); intros H.
  - apply state_texts in H; [exact H|]. intros s I. apply T. now apply load_text_in.
  - apply Ok_inj in H. subst c. constructor.
Qed.

Theorem program_ends w b pick a store stdin dep : pem_ok w -> cert_keys_ok w ->
  (forall key, loadKeyFromJson (load store) = Ok key -> usable_key key) -> texts_encode stdin ->
  verify_py_pool w b pick a store stdin dep = Some (verify_py w b pick a store stdin dep).
Proof.
  intros PW CK UK Sc. unfold verify_py_pool, verify_py. destruct (loadKeyFromJson (load store)) as [key|e] eqn:K; [|reflexivity]. cbn [bind].
  destruct (readStoreFromJson w (load store)) as [ks|e] eqn:S; [|reflexivity]. cbn [bind].
  destruct (read_state b a stdin) as [c|e] eqn:R; [|reflexivity]. cbn [bind].
  rewrite mode_ends; [|exact PW|exact (read_store w _ ks CK S)|now apply UK|exact (state_file_encodes _ _ _ _ Sc R)].
  destruct (verify_mode w pick a dep ks key c (register_index a c)) as [c' [e|]]; reflexivity.
Qed.

Theorem program_same w b pick a store stdin dep r : pem_ok w -> cert_keys_ok w ->
  verify_py_pool w b pick a store stdin dep = Some r -> r = verify_py w b pick a store stdin dep.
Proof.
  intros PW CK. unfold verify_py_pool, verify_py. destruct (loadKeyFromJson (load store)) as [key|e] eqn:K; cbn [bind]; [|congruence].
  destruct (readStoreFromJson w (load store)) as [ks|e] eqn:S; cbn [bind]; [|congruence].
  destruct (read_state b a stdin) as [c|e] eqn:R; cbn [bind]; [|congruence].
  destruct (mode_cases w pick a dep ks key c (register_index a c) PW (read_store w _ ks CK S)) as [->|(-> & _)]; [|discriminate].
  destruct (verify_mode w pick a dep ks key c (register_index a c)) as [c' [e|]]; congruence.
Qed.

Theorem program_lost w b pick a store stdin dep : pem_ok w -> cert_keys_ok w ->
  verify_py_pool w b pick a store stdin dep = None ->
  (1 < va_par a)%nat /\ exists pick', verify_py w b pick' a store stdin dep = Err InvalidKey.
Proof.
  intros PW CK. unfold verify_py_pool, verify_py. destruct (loadKeyFromJson (load store)) as [key|e] eqn:K; cbn [bind]; [|discriminate].
  destruct (readStoreFromJson w (load store)) as [ks|e] eqn:S; cbn [bind]; [|discriminate].
  destruct (read_state b a stdin) as [c|e] eqn:R; cbn [bind]; [|discriminate].
  destruct (mode_cases w pick a dep ks key c (register_index a c) PW (read_store w _ ks CK S)) as [->|(-> & P & E)].
  - destruct (verify_mode w pick a dep ks key c (register_index a c)) as [c' [e|]]; discriminate.
  - intros _. split; [exact P|]. exists find_key. destruct (verify_mode w find_key a dep ks key c (register_index a c)) as [c' o]. cbn [snd] in E. now subst o.
Qed.

Theorem library_ends w sch s ks key c idx : pem_ok w -> store_read w ks -> usable_key key -> state_encodes c ->
  sch_pool sch <> Some 0%nat ->
  (exists nparts dep n, s = parse_dict w nparts dep n) \/ (exists kind doc n, s = parse_inc w kind doc n) ->
  verifyWithPool w sch s ks key c idx = Some (verifyParsedDEP w sch s ks key c idx).
Proof.
  intros PW S UK Sc Po [(np & dep & n & ->)|(kind & doc & n & ->)]; apply pool_ends; try assumption; [apply dict_read|apply inc_read].
Qed.
