(** The receipt host. *)
From Verif Require Import PyBase World Regex Codec Algo Receipt DepBase Json Pem KeyStore VerifyReceipt State DepParser Verify DepExport ListFacts CodecFacts CodecFacts2 SpecReceipt ReceiptFacts
  RoundTrip RoundTrip2 VerifyFacts SpecDep DepFacts SpecCluster ClusterFacts AcceptFacts SeqFacts DepTheorems SpecChunks ChunkFacts DictFacts SpecDoc IncDoc IncBack IncTheorems SpecKeys KeyFacts
  PemFacts SpecMerge MergeFacts SpecExport ExportFacts SplitFacts FormFacts SpecConvert ConvertFacts StateCliFacts Url SpecUrl UrlFacts Host SpecHost.
Open Scope N_scope.
Open Scope py_scope.

(** Both modes store texts one after the other. *)
Fixpoint host_texts (w : world) (store : list (str * str)) (texts : list str) : result (list (str * str)) :=
  match texts with
  | [] => Ok store
  | t :: r =>
      do rp <- fromJWSString w t;
      do h <- toURLHash w (fst rp) (snd rp);
      do code <- toBasicCode (fst rp) (snd rp);
      host_texts w (dict_set store h code) r
  end.

Lemma host_lines w : forall lines store, host_receipts w store lines = host_texts w store (map (strip (char_isspace w)) lines).
Proof.
  induction lines as [|l lines IH]; intros store; [reflexivity|]. cbn [host_receipts host_texts map].
  destruct (fromJWSString w (strip (char_isspace w) l)) as [rp|]; [|reflexivity]. cbn [bind].
  destruct (toURLHash w (fst rp) (snd rp)) as [h|]; [|reflexivity]. cbn [bind].
  destruct (toBasicCode (fst rp) (snd rp)) as [c|]; [|reflexivity]. cbn [bind]. apply IH.
Qed.

Lemma expand_read w t r : fromJWSString w t = Ok r -> expandDEPReceipt t = Ok t.
Proof. intros H. apply text_read in H as [H _]. unfold expandDEPReceipt. now rewrite (utf8_decode_encode _ _ H). Qed.

Lemma compact_texts w : forall texts store, Forall (fun t => exists r, fromJWSString w t = Ok r) texts ->
  host_compact w store texts = host_texts w store texts.
Proof.
  induction texts as [|t texts IH]; intros store F; [reflexivity|]. inversion F as [|? ? (rp & R) F']; subst. cbn [host_compact host_texts].
  rewrite (expand_read w t rp R). cbn [bind]. rewrite R. cbn [bind].
  destruct (toURLHash w (fst rp) (snd rp)) as [h|]; [|reflexivity]. cbn [bind].
  destruct (toBasicCode (fst rp) (snd rp)) as [c|]; [|reflexivity]. cbn [bind]. now apply IH.
Qed.

Lemma compact_read w : forall bs store store', host_compact w store bs = Ok store' -> Forall (fun t => exists r, fromJWSString w t = Ok r) bs.
Proof.
  induction bs as [|b bs IH]; intros store store' H; [constructor|]. cbn [host_compact] in H. apply bind_Ok in H as (t & X & H).
  apply bind_Ok in H as (rp & R & H). apply bind_Ok in H as (h & _ & H). apply bind_Ok in H as (c & _ & H).
  constructor; [|exact (IH _ _ H)]. exists rp. apply adapt_text. unfold adaptReceipt. rewrite X. exact R.
Qed.

(** Code and hash of a text *)
Lemma text_code w t r : fromJWSString w t = Ok (r, lit "R1") -> exists code h,
  toBasicCode r (lit "R1") = Ok code /\ toURLHash w r (lit "R1") = Ok h /\ has_code w t code /\ code_hash w code h.
Proof.
  intros J. destruct (hash_exists w t r _ J) as (h & H). pose proof H as H'. unfold toURLHash in H'. apply bind_Ok in H' as (code & C & H').
  exists code, h. split; [exact C|]. split; [exact H|]. split.
  - exists r. split; [now apply parse_reads in J|exact C].
  - change (known_alg (lit "R1")) with true in H'. cbn iota in H'. unfold r1_hash in H'. apply bind_Ok in H' as (b & U & H'). apply bind_Ok in U as (u & U & Eb).
    apply Ok_inj in Eb. apply Ok_inj in H'. subst b. exists u. auto.
Qed.
Lemma has_code_fun w t c c' : has_code w t c -> has_code w t c' -> c = c'.
Proof. intros (r & R & C) (r' & R' & C'). rewrite (reads_fun _ _ _ _ R R') in C. congruence. Qed.
Lemma code_hash_fun w c h h' : code_hash w c h -> code_hash w c h' -> h = h'.
Proof. intros (u & U & ->) (u' & U' & ->). congruence. Qed.

Lemma texts_start w : forall texts store, Forall (fun t => exists r, fromJWSString w t = Ok r) texts -> exists store', host_texts w store texts = Ok store'.
Proof.
  induction texts as [|t texts IH]; intros store F; [exists store; reflexivity|]. inversion F as [|? ? ([r alg] & R) F']; subst. cbn [host_texts].
  rewrite R. cbn [bind fst snd]. pose proof R as R0. apply parse_reads in R0 as [-> _].
  destruct (text_code w t r R) as (code & h & C & H & _). rewrite H, C. cbn [bind]. now apply IH.
Qed.
Lemma texts_started w : forall texts store store', host_texts w store texts = Ok store' -> Forall (fun t => exists r, fromJWSString w t = Ok r) texts.
Proof.
  induction texts as [|t texts IH]; intros store store' H; [constructor|]. cbn [host_texts] in H.
  apply bind_Ok in H as (rp & R & H). apply bind_Ok in H as (h & _ & H). apply bind_Ok in H as (c & _ & H). constructor; [eauto|exact (IH _ _ H)].
Qed.

Lemma texts_stored w : forall texts store store', host_texts w store texts = Ok store' ->
  forall h, (exists code, dict_get store' h = Some code /\ newest_with w texts h code)
    \/ (dict_get store' h = dict_get store h /\ forall t c, In t texts -> has_code w t c -> ~ code_hash w c h).
Proof.
  induction texts as [|t texts IH]; intros store store' H h.
  - cbn [host_texts] in H. apply Ok_inj in H. subst. right. split; [reflexivity|]. intros t c [].
  - cbn [host_texts] in H. apply bind_Ok in H as ([r alg] & R & H). cbn [fst snd] in H. pose proof R as R0. apply parse_reads in R0 as [-> _].
    destruct (text_code w t r R) as (code & h1 & C & Hh & HC & CH). rewrite Hh, C in H. cbn [bind] in H.
    destruct (IH _ _ H h) as [(c & G & a & t' & b & E & X)|[G N]].
    + left. exists c. split; [exact G|]. exists (t :: a), t', b. split; [now rewrite E|exact X].
    + rewrite get_set in G. destruct (str_eqb h1 h) eqn:X.
      * apply str_eqb_eq in X. subst h1. left. exists code. split; [exact G|]. exists [], t, texts. split; [reflexivity|]. split; [exact HC|]. split; [exact CH|exact N].
      * right. split; [exact G|]. intros t' c [<-|I] HC' CH'; [|exact (N t' c I HC' CH')]. rewrite (has_code_fun _ _ _ _ HC' HC) in CH'.
        rewrite (code_hash_fun _ _ _ _ CH CH'), str_eqb_refl in X. discriminate.
Qed.


Lemma two_splits {A} (t t' : A) b b' : forall a a', a ++ t :: b = a' ++ t' :: b' -> t = t' \/ In t' b \/ In t b'.
Proof.
  induction a as [|x a IH]; intros [|x' a'] E; cbn [app] in E.
  - injection E as -> ->. now left.
  - injection E as -> ->. right. left. apply in_or_app. right. now left.
  - injection E as -> <-. right. right. apply in_or_app. right. now left.
  - injection E as -> E. exact (IH _ E).
Qed.
Lemma newest_fun w texts h c c' : newest_with w texts h c -> newest_with w texts h c' -> c = c'.
Proof.
  intros (a & t & b & E & HC & CH & N) (a' & t' & b' & E' & HC' & CH' & N'). rewrite E in E'. apply two_splits in E' as [<-|[I|I]].
  - exact (has_code_fun _ _ _ _ HC HC').
  - now destruct (N t' c' I HC').
  - now destruct (N' t c I HC).
Qed.

Lemma texts_answers w texts store : host_texts w [] texts = Ok store -> answers w texts store.
Proof.
  intros H h. unfold get_url_hash. destruct (texts_stored w texts [] store H h) as [(code & -> & N)|[-> N]].
  - split.
    + intros c. split; [intros E; injection E as <-; exact N|]. intros N'. now rewrite (newest_fun _ _ _ _ _ N N').
    + cbn [status]. split; [discriminate|]. intros X. destruct N as (a & t & b & -> & HC & CH & _). destruct (X t code); [apply in_or_app; right; now left|exact HC|exact CH].
  - cbn [dict_get status]. split; [|split; [auto|reflexivity]]. intros c. split; [discriminate|]. intros (a & t & b & -> & HC & CH & _).
    destruct (N t c); [apply in_or_app; right; now left|exact HC|exact CH].
Qed.

Lemma read_texts w gs : texts_read w gs <-> Forall (fun t => exists r, fromJWSString w t = Ok r) (all_texts gs).
Proof. unfold texts_read, all_texts. symmetry. apply Forall_flat_map. Qed.

(** C69: DEPs *)
Theorem dep_hosted w n doc gs : plain_names doc -> dep_doc w doc gs -> all_texts gs <> [] -> texts_read w gs ->
  exists store, host_dep w n doc = Ok store /\ answers w (all_texts gs) store.
Proof.
  intros Pl D N T. destruct (certless_texts w doc n gs Pl D N T) as (cs & P & E). apply read_texts in T.
  destruct (texts_start w (all_texts gs) [] T) as (store & H). exists store. split; [|now apply texts_answers].
  unfold host_dep. rewrite P. cbn [fst snd]. rewrite E, (compact_texts w _ _ T), H. reflexivity.
Qed.

Theorem host_started w n doc store : plain_names doc -> host_dep w n doc = Ok store -> exists gs, dep_doc w doc gs /\ texts_read w gs.
Proof.
  intros Pl H. unfold host_dep in H. cbv zeta in H. apply bind_Ok in H as (st & H & X). destruct (parse_inc w P_certless doc n) as [cs o] eqn:P. cbn [fst snd] in *.
  destruct o as [e|]; [discriminate X|]. destruct (parsed_doc w P_certless doc n cs Pl P) as (gs & dgs & D & E). exists gs. split; [exact D|].
  apply compact_read in H. destruct (filled dgs) as [|f fl] eqn:Fd.
  - clear -E Fd. induction E as [|g dg gs dgs [E1 E2] E IH]; [constructor|]. rewrite <- filter_filled in Fd. cbn [filter] in Fd.
    destruct (has_receipts dg) eqn:R; [discriminate Fd|]. rewrite filter_filled in Fd. constructor; [|exact (IH Fd)]. unfold has_receipts in R. destruct (g_recs dg); [|discriminate R].
    inversion E1. constructor.
  - assert (filled dgs <> []) as NE by congruence. pose proof (file_chunks w doc n gs dgs D Pl E NE) as PF.
    destruct (certless_parser _ _ _ _ _ PF) as (cs' & P' & M). rewrite P in P'. injection P' as <-.
    rewrite recs_concat, <- M, <- recs_concat, recs_stamped in H. destruct (inc_faithful n dgs) as (S & _). rewrite S in H. clear -E H.
    induction E as [|g dg gs dgs [E1 E2] E IH]; [constructor|]. unfold stamped in H. cbn [flat_map] in H. rewrite map_app, map_map in H. cbn [fst] in H. rewrite map_id in H.
    apply Forall_app in H as [H1 H2]. constructor; [|exact (IH H2)]. clear -E1 H1. induction E1 as [|t b l m U F IH]; [constructor|].
    inversion H1 as [|? ? (r & R) H2]; subst. constructor; [|exact (IH H2)]. exists r. assert (b = t) as ->; [|exact R].
    apply text_read in R as [R _]. exact (utf8_encode_inj _ _ _ R U).
Qed.

(** Accepted DEPs can be hosted. *)
Lemma accepted_read w ks key doc gs c idx c' : hash_ok w -> dep_doc w doc gs -> verifyDEP w (load doc) ks key c idx = (c', None) ->
  texts_read w gs /\ all_texts gs <> [].
Proof.
  intros HO D V. apply verifyDEP_spec in V as (be & reg0 & af & reg' & p & items & S & (gs' & D' & _ & F & N) & P & V & Ra & ->); [|exact HO].
  rewrite (dep_is_fun _ _ _ _ D' (load_doc _ _ _ D)) in F. split.
  - apply Forall_forall. intros g G. apply Forall_forall. intros t Ht.
    assert (In t (all_texts gs)) as I by (unfold all_texts; apply in_flat_map; eauto). rewrite <- (items_texts ks gs) in I. apply in_map_iff in I as ((t' & v) & Et & I). cbn [fst] in Et. subst t'.
    clear -F I. induction F as [|[s0 v0] i l m (E & R & _) F IH]; [destruct I|]. destruct I as [I|I]; [|now apply IH]. injection I as -> ->.
    exists (i_rec i, lit "R1"). now apply parse_reads.
  - intros X. rewrite <- (items_texts ks gs) in X. inversion F as [Y|]; subst; [congruence|]. rewrite <- H1 in X. discriminate X.
Qed.
Theorem accepted_hosted w ks key doc gs c idx c' n : hash_ok w -> plain_names doc -> dep_doc w doc gs -> verifyDEP w (load doc) ks key c idx = (c', None) ->
  exists store, host_dep w n doc = Ok store /\ answers w (all_texts gs) store.
Proof. intros HO Pl D V. destruct (accepted_read _ _ _ _ _ _ _ _ HO D V) as [T N]. now apply dep_hosted. Qed.

(** C69: lines *)
Theorem lines_hosted w lines store : host_receipts w [] lines = Ok store -> answers w (map (strip (char_isspace w)) lines) store.
Proof. rewrite host_lines. apply texts_answers. Qed.
Theorem lines_started w lines : (exists store, host_receipts w [] lines = Ok store) <->
  Forall (fun l => exists r, reads w (strip (char_isspace w) l) r) lines.
Proof.
  split.
  - intros (store & H). rewrite host_lines in H. apply texts_started in H. rewrite Forall_map in H. eapply Forall_impl; [|exact H].
    intros l ([r alg] & R). apply parse_reads in R as [_ R]. eauto.
  - intros F. destruct (texts_start w (map (strip (char_isspace w)) lines) []) as (st & H); [|exists st; now rewrite host_lines].
    apply Forall_map. eapply Forall_impl; [|exact F]. intros l (r & R). exists (r, lit "R1"). now apply parse_reads.
Qed.

(** C69: clients *)
Lemma verify_same w v r alg x : verify w v r alg = Ok x -> x = (r, alg).
Proof.
  unfold verify. intros V. destruct (known_alg alg); [|discriminate]. apply bind_Ok in V as (k & _ & V). apply bind_Ok in V as (b & _ & V). destruct b.
  - apply bind_Ok in V as (d & _ & V). apply bind_Ok in V as (rv & _ & V). destruct (negb rv && isNull r); discriminate.
  - destruct k as [k|]; [|discriminate]. apply bind_Ok in V as (jws & _ & V). destruct (r1_verify w jws k); [|discriminate]. apply Ok_inj in V. now symmetry.
Qed.
Lemma served w texts store t code h : answers w texts store -> hashes_apart w texts -> In t texts -> has_code w t code -> code_hash w code h ->
  getBasicCode (get_url_hash store h) = Ok code.
Proof.
  intros A Ap I HC CH. destruct (A h) as [A1 A2]. destruct (dict_get store h) as [c|] eqn:G.
  - assert (newest_with w texts h c) as N by (apply A1; unfold get_url_hash; now rewrite G).
    destruct N as (a & t' & b & E & HC' & CH' & _). unfold get_url_hash. rewrite G. unfold getBasicCode. cbn [status body dict_get].
    change (400 <=? 200) with false. cbn iota. rewrite str_eqb_refl. f_equal. apply (Ap t' t c code h); try assumption. rewrite E. apply in_or_app. right. now left.
  - exfalso. assert (status (get_url_hash store h) = 404) as X by (unfold get_url_hash; now rewrite G). rewrite A2 in X. exact (X t code I HC CH).
Qed.

Theorem client_verdict w texts store t r code h v base c fetch : hash_ok w -> answers w texts store -> hashes_apart w texts -> In t texts ->
  reads w t r -> signature_plain r -> has_code w t code -> code_hash w code h ->
  ~ In c_hash (base ++ [c]) -> ~ url_safe c -> fetch (base ++ c :: h) = getBasicCode (get_url_hash store h) ->
  getAndVerifyReceiptURL w v fetch (base ++ c :: h) = match verifyJWS w v t with Ok _ => Ok tt | Err e => Err e end.
Proof.
  intros K A Ap I R (sg & Sg & Pl) HC CH N U F. rewrite (served w texts store t code h A Ap I HC CH) in F.
  assert (fromJWSString w t = Ok (r, lit "R1")) as J by now apply parse_reads.
  destruct (text_code w t r J) as (code' & h' & C & Hh & HC' & CH'). rewrite (has_code_fun _ _ _ _ HC' HC) in *. rewrite (code_hash_fun _ _ _ _ CH' CH) in *. clear HC' CH' code' h'.
  unfold getAndVerifyReceiptURL. rewrite F. cbn [bind]. rewrite url_segment; [|exact N|exact U|now apply (hash_shape w r (lit "R1"))]. cbn [verifyURLHashOpt].
  pose proof (jws_to_qr w t r _ J) as (q & b & (sg' & Sg' & G) & Q & B). rewrite C in Q. apply Ok_inj in Q. subst q.
  assert (exists r', verifyBasicCode w v code = (match verifyJWS w v t with Ok _ => Ok (r', lit "R1") | Err e => Err e end) /\ fromBasicCode w code = Ok (r', lit "R1")) as (r' & V & B').
  { exists (canonical_sig r b). split; [|exact B]. destruct Pl as [Cn|Ns].
    - rewrite (qr_verdict w v t r _ code J C sg Sg Cn). 
      destruct (verifyJWS w v t) as [[r2 a2]|e] eqn:V; [|reflexivity]. f_equal.
      assert (canonical_sig r b = r) as ->.
      { pose proof R as (f & sg2 & J2 & I2). assert (sg2 = sg) as -> by (destruct I2 as (_ & S2 & _); rewrite S2 in Sg; now injection Sg as ->).
        rewrite Sg in Sg'. injection Sg' as <-. now apply (proj2 (canonical_sig_id w f sg r b I2 G)). }
      unfold verifyJWS in V. rewrite J in V. cbn [bind fst snd] in V. now apply verify_same in V.
    - apply (qr_verdict_any w v t r (lit "R1") code b J C); [now exists sg'|]. intros ->. rewrite Sg in Sg'. injection Sg' as <-. contradiction. }
  rewrite V. destruct (verifyJWS w v t) as [x|e]; [|reflexivity]. cbn [bind fst snd].
  destruct (code_again _ _ _ _ _ _ _ J C B') as [_ C2]. apply (hash_accepted w r' (lit "R1") h). rewrite <- Hh.
  apply (hash_of_code w r r' (lit "R1") code C C2). reflexivity.
Qed.

(** Hashes of texts that are apart *)
Definition text_hash (w : world) (t : str) : option str :=
  match fromJWSString w t with Ok (r, alg) => match toURLHash w r alg with Ok h => Some h | Err _ => None end | Err _ => None end.
Lemma apart_nodup w texts : NoDup (map (text_hash w) texts) -> hashes_apart w texts.
Proof.
  intros N t t' c c' h I I' HC HC' CH CH'.
  assert (forall t c, has_code w t c -> code_hash w c h -> text_hash w t = Some h) as X.
  { intros t0 c0 (r & R & C) H. assert (fromJWSString w t0 = Ok (r, lit "R1")) as J by now apply parse_reads.
    destruct (text_code w t0 r J) as (code & h0 & C0 & Hh & _ & H0). rewrite C in C0. apply Ok_inj in C0. subst code. rewrite (code_hash_fun _ _ _ _ H0 H) in Hh.
    unfold text_hash. now rewrite J, Hh. }
  assert (t = t') as <-; [|exact (has_code_fun _ _ _ _ HC HC')].
  pose proof (X _ _ HC CH) as E. pose proof (X _ _ HC' CH') as E'. clear -N I I' E E'. induction texts as [|x l IH]; [destruct I|]. cbn [map] in N. inversion N as [|? ? A N']; subst.
  destruct I as [->|I], I' as [->|I']; [reflexivity| | |now apply IH]; exfalso; apply A; [rewrite E, <- E'|rewrite E', <- E]; now apply in_map.
Qed.
