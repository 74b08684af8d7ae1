(** Conversion of DEPs to tables and back. *)
From Coq Require Import Lia ZifyClasses ZifyN ZifyNat ZifyBool.
From Verif Require Import PyBase World Regex Codec Receipt DepBase Json Pem KeyStore VerifyReceipt State DepParser Verify DepExport ListFacts CodecFacts CodecFacts2 SpecReceipt ReceiptFacts
  RoundTrip RoundTrip2 VerifyFacts SpecDep DepFacts SpecCluster ClusterFacts AcceptFacts SeqFacts DepTheorems SpecChunks ChunkFacts DictFacts SpecDoc IncDoc IncBack IncTheorems SpecKeys PemFacts
  SpecMerge MergeFacts SpecExport ExportFacts SplitFacts FormFacts SpecConvert.
Open Scope N_scope.
Open Scope py_scope.

(** ** The parser without certificates *)

(** States that differ in certificates only *)
Definition alike (d d' : dstate) : Prop :=
  d_mode d = d_mode d' /\ d_root_seen d = d_root_seen d' /\ d_groups_seen d = d_groups_seen d' /\ d_curIdx d = d_curIdx d'
  /\ d_recs_seen d = d_recs_seen d' /\ d_cert_seen d = d_cert_seen d' /\ d_list_seen d = d_list_seen d'
  /\ map g_recs (d_chunk d) = map g_recs (d_chunk d') /\ d_recs d = d_recs d'.

Local Ltac split_alike := repeat (split; [first [reflexivity|assumption]|]); first [reflexivity|assumption].

Lemma alike_merge d d' : alike d d' -> alike (mergeIntoChunk d) (mergeIntoChunk d').
Proof.
  intros (H1 & H2 & H3 & H4 & H5 & H6 & H7 & H8 & H9). unfold mergeIntoChunk. rewrite <- H9. destruct (d_recs d) as [|b l] eqn:E.
  - unfold alike. rewrite E. split_alike.
  - unfold alike. cbn [d_mode d_root_seen d_groups_seen d_curIdx d_recs_seen d_cert_seen d_list_seen d_chunk d_recs].
    assert (map g_recs (d_chunk d ++ [DGroup (b :: l) (d_cert d) (match d_chain d with None => [] | Some l => l end)]) =
            map g_recs (d_chunk d' ++ [DGroup (b :: l) (d_cert d') (match d_chain d' with None => [] | Some l => l end)])) as M
      by (rewrite !map_app; cbn [map g_recs]; congruence).
    split_alike.
Qed.

Lemma alike_mode d d' m : alike d d' -> alike (set_mode d m) (set_mode d' m).
Proof.
  intros (H1 & H2 & H3 & H4 & H5 & H6 & H7 & H8 & H9). unfold alike, set_mode.
  cbn [d_mode d_root_seen d_groups_seen d_curIdx d_recs_seen d_cert_seen d_list_seen d_chunk d_recs]. split_alike.
Qed.

Lemma alike_parse w d d' p e d1 : alike d d' -> d_parse w d p e = Ok d1 -> exists d1', d_parse w d' p e = Ok d1' /\ alike d1 d1'.
Proof.
  intros A. pose proof A as (H1 & H2 & H3 & H4 & H5 & H6 & H7 & H8 & H9). unfold d_parse. rewrite <- H1, <- H2, <- H3, <- H4, <- H5, <- H6, <- H7, <- H9.
  intros H.
  repeat match type of H with
  | Err _ = Ok _ => discriminate H
  | Ok _ = Ok _ => fail 1
  | match d_mode d with _ => _ end = _ => destruct (d_mode d) eqn:Em
  | (if ?b then _ else _) = _ => destruct b eqn:?
  | match ?b with true => _ | false => _ end = _ => destruct b eqn:?
  | match e with _ => _ end = _ => destruct e eqn:?
  | bind _ _ = Ok _ => let x := fresh "x" in let E := fresh "E" in apply bind_Ok in H as (x & E & H); rewrite ?E; cbn [bind]
  end; try discriminate H; try (apply Ok_inj in H; subst d1; eexists; split; [reflexivity|]);
  try exact A; try (apply alike_mode; try apply alike_merge; exact A);
  try (unfold alike; cbn [d_mode d_root_seen d_groups_seen d_curIdx d_recs_seen d_cert_seen d_list_seen d_chunk d_recs]; split_alike).
Qed.

Lemma alike_chunk m d d' : alike d d' ->
  map g_recs (fst (getChunk m d)) = map g_recs (fst (getChunk m d')) /\ alike (snd (getChunk m d)) (snd (getChunk m d')).
Proof.
  intros A. unfold getChunk. set (x := if incomplete m then mergeIntoChunk d else d). set (y := if incomplete m then mergeIntoChunk d' else d').
  assert (alike x y) as B by (subst x y; destruct (incomplete m); [now apply alike_merge|exact A]).
  pose proof B as (H1 & H2 & H3 & H4 & H5 & H6 & H7 & H8 & H9).
  assert (currentChunksize x = currentChunksize y) as ->.
  { unfold currentChunksize. rewrite <- !(map_map g_recs (@List.length bytes)). now rewrite H8. }
  destruct (currentChunksize y <=? 0)%nat; cbn [fst snd]; [split; [reflexivity|exact B]|]. split; [exact H8|].
  unfold alike. cbn [d_mode d_root_seen d_groups_seen d_curIdx d_recs_seen d_cert_seen d_list_seen d_chunk d_recs]. split_alike.
Qed.

Lemma alike_ready m n d d' : alike d d' -> d_ready m n d = d_ready m n d'.
Proof.
  intros (H1 & H2 & H3 & H4 & H5 & H6 & H7 & H8 & H9). unfold d_ready, currentChunksize. rewrite <- !(map_map g_recs (@List.length bytes)). now rewrite H8, H9.
Qed.

Lemma loop_alike w kind doc n evs : forall d d' got cs, alike d d' -> inc_loop w kind doc n evs d got = (cs, None) ->
  exists cs', inc_loop w P_certless doc n evs d' got = (cs', None) /\ map (map g_recs) cs = map (map g_recs) cs'.
Proof.
  induction evs as [|[p e] evs IH]; intros d d' got cs A H; cbn [inc_loop] in *.
  - pose proof A as (H1 & _). rewrite <- H1. destruct (alike_chunk (d_mode d) d d' A) as [C _].
    destruct (fst (getChunk (d_mode d) d)) as [|g gs]; destruct (fst (getChunk (d_mode d) d')) as [|g' gs']; try discriminate C.
    + destruct got; [|discriminate]. injection H as <-. exists []. split; reflexivity.
    + unfold s_cons, s_end in H. cbn [fst snd] in H. injection H as <-. exists [g' :: gs']. split; [reflexivity|]. cbn [map] in *. congruence.
  - destruct (d_parse w d p e) as [d1|] eqn:E; [|discriminate]. destruct (alike_parse w d d' p e d1 A E) as (d1' & E' & A1). rewrite E'.
    pose proof A as (Hm & _). rewrite <- Hm, <- (alike_ready (d_mode d) n d1 d1' A1). destruct (d_ready (d_mode d) n d1).
    2:{ exact (IH d1 d1' got cs A1 H). }
    set (res := match needCrt (d_mode d) d1 with None => Ok d1 | Some i => needCerts w kind doc i d1 end) in H.
    destruct res as [d2|] eqn:R; [|discriminate].
    assert (alike d2 d1') as A2.
    { subst res. destruct (needCrt (d_mode d) d1); [|apply Ok_inj in R; now subst].
      pose proof A1 as (H1 & H2 & H3 & H4 & H5 & H6 & H7 & H8 & H9).
      unfold needCerts in R. destruct kind; [discriminate|apply Ok_inj in R; now subst|].
      repeat (let x := fresh "x" in apply bind_Ok in R as (x & _ & R)). apply Ok_inj in R. subst d2.
      unfold alike. cbn [d_mode d_root_seen d_groups_seen d_curIdx d_recs_seen d_cert_seen d_list_seen d_chunk d_recs]. split_alike. }
    assert (match needCrt (d_mode d) d1' with None => Ok d1' | Some i => needCerts w P_certless doc i d1' end = Ok d1') as -> by (destruct (needCrt (d_mode d) d1'); reflexivity).
    cbv zeta in *. destruct (alike_chunk (d_mode d) d2 d1' A2) as [C A3].
    destruct (inc_loop w kind doc n evs (snd (getChunk (d_mode d) d2)) true) as [cs1 o] eqn:L. unfold s_cons in H. cbn [fst snd] in H. injection H as <- ->.
    destruct (IH _ _ true cs1 A3 L) as (cs' & L' & M). exists (fst (getChunk (d_mode d) d1') :: cs'). rewrite L'. split; [reflexivity|].
    cbn [map]. congruence.
Qed.

Theorem certless_parser w kind doc n cs : parse_inc w kind doc n = (cs, None) ->
  exists cs', parse_inc w P_certless doc n = (cs', None) /\ map (map g_recs) cs = map (map g_recs) cs'.
Proof. apply loop_alike. split_alike. Qed.

(** Its receipts in a document *)
Lemma recs_concat (cs : list chunk) : flat_map g_recs (List.concat cs) = List.concat (map (fun c => List.concat c) (map (map g_recs) cs)).
Proof.
  induction cs as [|c cs IH]; [reflexivity|]. cbn [List.concat map]. rewrite flat_map_app, IH. f_equal. now rewrite flat_map_concat_map.
Qed.
Lemma recs_stamped (cs : list chunk) : flat_map g_recs (List.concat cs) = map fst (flat_map stamped cs).
Proof.
  induction cs as [|c cs IH]; [reflexivity|]. cbn [List.concat flat_map]. rewrite flat_map_app, map_app, IH. f_equal.
  unfold stamped. induction c as [|g c IHc]; [reflexivity|]. cbn [flat_map]. rewrite map_app, map_map. cbn [fst]. rewrite map_id. now rewrite IHc.
Qed.

Lemma all_texts_stamps gs : all_texts gs = map fst (text_stamps gs).
Proof.
  unfold all_texts, text_stamps. induction gs as [|g gs IH]; [reflexivity|]. cbn [flat_map]. rewrite map_app, map_map. cbn [fst]. rewrite map_id. now rewrite IH.
Qed.

Lemma certless_texts w doc n gs : plain_names doc -> dep_doc w doc gs -> all_texts gs <> [] -> texts_read w gs ->
  exists cs : list chunk, parse_inc w P_certless doc n = (cs, None) /\ flat_map g_recs (List.concat cs) = all_texts gs.
Proof.
  intros Pl D N T. destruct (texts_encoded w gs T) as (dgs & E & R).
  assert (text_stamps gs <> []) as N' by (intros X; apply N; rewrite all_texts_stamps, X; reflexivity).
  pose proof (file_chunks w doc n gs dgs D Pl E (occupied_filled _ _ E N')) as P.
  destruct (certless_parser _ _ _ _ _ P) as (cs & P' & M). exists cs. split; [exact P'|].
  rewrite recs_concat, <- M, <- recs_concat, recs_stamped. destruct (inc_faithful n dgs) as (S & _). rewrite S.
  clear -E T. induction E as [|g dg gs dgs [E1 E2] E IH]; [reflexivity|]. inversion T as [|? ? T1 T2]; subst.
  unfold stamped. cbn [flat_map]. rewrite map_app, map_map. cbn [fst]. rewrite map_id. fold (stamped dgs). rewrite (IH T2).
  unfold all_texts. cbn [flat_map]. f_equal. clear -E1 T1. induction E1 as [|t b l m H F IH]; [reflexivity|]. inversion T1 as [|? ? (r & T) T2]; subst.
  destruct (text_read w t r T) as [U _]. rewrite H in U. apply Ok_inj in U. subst b. f_equal. now apply IH.
Qed.

Lemma s_map_adapt w (cs : list chunk) rgs : receiptGroupAdapter w (cs, None) = (rgs, None) ->
  Forall2 (fun b r => adaptReceipt w b = Ok r) (flat_map g_recs (List.concat cs)) (flat_map rg_recs rgs).
Proof.
  intros H. apply adapter_spec in H as [H _]. induction H as [|dg g l m [A _] F IH]; [constructor|]. cbn [flat_map]. now apply Forall2_app.
Qed.
Lemma adapt_exists w (cs : list chunk) : Forall (fun b => exists r, adaptReceipt w b = Ok r) (flat_map g_recs (List.concat cs)) ->
  exists rgs, receiptGroupAdapter w (cs, None) = (rgs, None).
Proof.
  intros F. destruct (readable w (List.concat cs)) as (rgs & R).
  - intros b x I. unfold stamped in I. apply in_flat_map in I as (g & Ig & I). apply in_map_iff in I as (b' & Eb & I). injection Eb as <- _.
    rewrite Forall_forall in F. apply F. apply in_flat_map. eauto.
  - exists rgs. apply adapter_spec. auto.
Qed.

(** ** The table *)

Lemma column_header : column_line = csv_header.
Proof. reflexivity. Qed.

Lemma table_spec lines : csv_header ++ List.concat (map (fun l => c_nl :: l) lines) ++ [c_nl] = table lines.
Proof.
  unfold table. rewrite column_header. cbn [map List.concat]. rewrite <- app_assoc. f_equal. cbn [app].
  assert (forall ls : list str, List.concat (map (fun l => c_nl :: l) ls) ++ [c_nl] = c_nl :: List.concat (map (fun l => l ++ [c_nl]) ls)) as K; [|apply K].
  induction ls as [|l ls IH]; [reflexivity|]. cbn [map List.concat]. rewrite <- app_assoc, IH. cbn [app]. rewrite <- app_assoc. reflexivity.
Qed.

Theorem json2csv_spec w n doc gs : plain_names doc -> dep_doc w doc gs -> all_texts gs <> [] -> texts_read w gs ->
  exists lines, json2csv w n doc = Ok (table lines)
    /\ Forall2 (fun t l => exists r, reads w t r /\ toCSV r (lit "R1") = Ok l) (all_texts gs) lines.
Proof.
  intros Pl D N T. destruct (certless_texts w doc n gs Pl D N T) as (cs & P & E). unfold json2csv. rewrite P.
  assert (Forall (fun b => exists r, adaptReceipt w b = Ok r) (flat_map g_recs (List.concat cs))) as R.
  { rewrite E. unfold all_texts. apply Forall_flat_map. eapply Forall_impl; [|exact T]. intros g G. eapply Forall_impl; [|exact G].
    intros t (r & H). exists r. now apply text_read in H. }
  destruct (adapt_exists w cs R) as (rgs & A). rewrite A. apply s_map_adapt in A. rewrite E in A.
  unfold exportCSV. cbn [fst snd].
  assert (exists lines, mapM (fun r : rtuple => toCSV (fst r) (snd r)) (flat_map rg_recs rgs) = Ok lines
    /\ Forall2 (fun t l => exists r, reads w t r /\ toCSV r (lit "R1") = Ok l) (all_texts gs) lines) as (lines & M & F).
  { clear -A. induction A as [|t [r alg] l m H A (lines & M & F)]; [exists []; split; [reflexivity|constructor]|].
    apply adapt_text in H. apply parse_reads in H as [-> Rd].
    assert (exists c, toCSV r (lit "R1") = Ok c) as [c Hc].
    { assert (fromJWSString w t = Ok (r, lit "R1")) as J by now apply parse_reads. apply jws_receipt in J as (f & sg & sb & _ & W & I & En & G).
      unfold toCSV. rewrite (toBasicCode_spec w f sg r sb) by assumption. eexists. reflexivity. }
    exists (c :: lines). cbn [mapM fst snd]. rewrite Hc, M. split; [reflexivity|]. constructor; eauto. }
  exists lines. rewrite M. cbn [bind]. split; [|exact F]. f_equal. rewrite <- table_spec. now rewrite <- app_assoc.
Qed.

(** ** Reading the table *)

Lemma csv_line w f sg r sb l : wf_printed w f -> is_receipt w f (Some (es256_header, sg)) r -> ReceiptFacts.encodable (payload_text f) -> seg_decodes sg sb ->
  toCSV r (lit "R1") = Ok l -> l = join [c_semi] (csv_fields f ++ [b64encode sb]).
Proof.
  intros W I E G H. unfold toCSV in H. rewrite (toBasicCode_spec w f sg r sb) in H by assumption. cbn [bind] in H. apply Ok_inj in H. subst l.
  pose proof (seg_decodes_bytes _ _ G) as Sb. destruct (b64encode_safe w sb Sb) as (B1 & _).
  set (l := csv_fields f ++ [b64encode sb]).
  assert (payload_text f ++ [c_us] ++ b64encode sb = c_us :: join [c_us] l) as Eq.
  { unfold l, payload_text, csv_fields. cbn [join app]. rewrite <- ?app_assoc. cbn [app]. repeat (rewrite <- ?app_assoc; cbn [app]). reflexivity. }
  assert (Forall (fun s => ~ In c_us s) l) as U.
  { apply Forall_app. split; [|repeat constructor; assumption]. pose proof (payload_segs_no_us w f W) as P. now inversion P. }
  rewrite Eq. cbn [tl]. now apply replace_char_join.
Qed.

Lemma join_In (sep : str) l c : In c (join sep l) -> In c sep \/ exists s, In s l /\ In c s.
Proof.
  induction l as [|s l IH]; [intros []|]. destruct l as [|t l].
  - cbn [join]. intros H. right. exists s. split; [now left|exact H].
  - change (join sep (s :: t :: l)) with (s ++ sep ++ join sep (t :: l)). intros H. apply in_app_or in H as [H|H]; [right; exists s; split; [now left|exact H]|].
    apply in_app_or in H as [H|H]; [now left|]. apply IH in H as [H|(x & Hx & H)]; [now left|]. right. exists x. split; [now right|exact H].
Qed.
Lemma join_last (sep : str) l x : l <> [] -> join sep (l ++ [x]) = join sep l ++ sep ++ x.
Proof.
  induction l as [|s l IH]; [congruence|]. intros _. destruct l as [|t l]; [reflexivity|].
  change ((s :: t :: l) ++ [x]) with (s :: (t :: l) ++ [x]). change (join sep (s :: (t :: l) ++ [x])) with (s ++ sep ++ join sep ((t :: l) ++ [x])).
  rewrite IH by discriminate. change (join sep (s :: t :: l)) with (s ++ sep ++ join sep (t :: l)). now rewrite <- !app_assoc.
Qed.

Lemma line_clean w t r l : reads w t r -> csv_safe w (r_fields r) -> Forall (fun s => ~ In c_nl s /\ ~ In 13 s) (csv_fields (r_fields r)) ->
  toCSV r (lit "R1") = Ok l -> ~ In c_nl l /\ ~ In 13 l /\ no_edge_space w l.
Proof.
  intros R S Nl H. assert (fromJWSString w t = Ok (r, lit "R1")) as J by now apply parse_reads.
  apply jws_receipt in J as (f & sg & sb & _ & W & I & En & G). assert (r_fields r = f) as Ef by apply I. rewrite Ef in *.
  apply (csv_line w f sg r sb l W I En G) in H. subst l. pose proof (seg_decodes_bytes _ _ G) as Sb. destruct (b64encode_safe w sb Sb) as (_ & _ & B3).
  assert (forall c, In c (b64encode sb) -> c <> c_nl /\ c <> 13) as B.
  { destruct (b64encode_canon sb Sb) as (d & k & -> & F & _). intros c Hc. apply in_app_or in Hc as [Hc|Hc].
    - rewrite forallb_forall in F. specialize (F c Hc). unfold is_b64_char, is_az, is_AZ, is_09, c_plus, c_slash, c_nl in *. lia.
    - apply repeat_spec in Hc. subst c. split; discriminate. }
  assert (forall c, c = c_nl \/ c = 13 -> ~ In c (join [c_semi] (csv_fields f ++ [b64encode sb]))) as K.
  { intros c Hc Hin. apply join_In in Hin as [[Hin|[]]|(s & Hs & Hin)]; [subst c; destruct Hc; discriminate|].
    apply in_app_or in Hs as [Hs|[<-|[]]].
    - rewrite Forall_forall in Nl. destruct (Nl s Hs) as [N1 N2]. destruct Hc as [->| ->]; contradiction.
    - destruct (B c Hin). tauto. }
  split; [apply K; now left|]. split; [apply K; now right|]. split.
  - intros c u E. unfold csv_fields in E. cbn [app join] in E. injection E as <- _. reflexivity.
  - intros c u E. rewrite join_last in E by discriminate. destruct B3 as [_ B3].
    destruct (b64encode sb) as [|x y] using rev_ind.
    + cbn [app] in E. apply app_inj_tail in E as [_ <-]. reflexivity.
    + rewrite !app_assoc in E. apply app_inj_tail in E as [_ <-]. exact (B3 x y eq_refl).
Qed.

Lemma newlines_id s : ~ In 13 s -> universal_newlines s = s.
Proof.
  induction s as [|c s IH]; [reflexivity|]. intros H. cbn [universal_newlines]. destruct (N.eqb_spec c 13); [subst; exfalso; apply H; now left|].
  f_equal. apply IH. intros X. apply H. now right.
Qed.
Lemma lines_cons l rest : ~ In c_nl l -> file_lines (l ++ c_nl :: rest) = (l ++ [c_nl]) :: file_lines rest.
Proof.
  induction l as [|c l IH]; [reflexivity|]. intros H. cbn [app file_lines]. destruct (N.eqb_spec c c_nl); [subst; exfalso; apply H; now left|].
  rewrite IH by (intros X; apply H; now right). reflexivity.
Qed.
Lemma lines_table ls : Forall (fun l => ~ In c_nl l) ls -> file_lines (List.concat (map (fun l => l ++ [c_nl]) ls)) = map (fun l => l ++ [c_nl]) ls.
Proof.
  induction 1 as [|l ls H F IH]; [reflexivity|]. cbn [map List.concat]. rewrite <- app_assoc. cbn [app]. rewrite lines_cons by exact H. now rewrite IH.
Qed.

Lemma strip_nl w l : no_edge_space w l -> strip (char_isspace w) (l ++ [c_nl]) = l.
Proof.
  intros N. destruct l as [|c l].
  - reflexivity.
  - unfold strip. rewrite (lstrip_id _ ((c :: l) ++ [c_nl])) by (intros c' t E; cbn [app] in E; injection E as <- _; now apply (proj1 N c l)).
    rewrite rev_app_distr. cbn [rev app lstrip]. change (char_isspace w c_nl) with true. cbn iota.
    pose proof (strip_id w (c :: l) N) as S. unfold strip in S. rewrite (lstrip_id _ (c :: l)) in S by (exact (proj1 N)). exact S.
Qed.

Theorem csv2json_back w ts lines : pem_ok w -> Forall (tabular w) ts ->
  Forall2 (fun t l => exists r, reads w t r /\ toCSV r (lit "R1") = Ok l) ts lines ->
  exists doc, csv2json w (table lines) = Ok doc /\ plain_names doc /\ dep_doc w doc [Group ts None []].
Proof.
  intros Pm T F.
  assert (Forall (fun l => ~ In c_nl l /\ ~ In 13 l /\ no_edge_space w l) lines
    /\ exists rs, mapM (fun l => fromCSV w (strip (char_isspace w) l)) (map (fun l => l ++ [c_nl]) lines) = Ok rs
       /\ Forall2 (fun t r => fromJWSString w t = Ok r) ts rs) as (Cl & rs & M & Rs).
  { induction F as [|t l ts lines (r & R & C) F IH]; [split; [constructor|exists []; split; [reflexivity|constructor]]|].
    pose proof (Forall_inv_tail T) as T2. destruct (Forall_inv T) as ((h & p & g & Et & _ & _ & Cg) & r' & R' & S & Nl). pose proof (reads_fun _ _ _ _ R' R). subst r'.
    destruct (IH T2) as (Cl & rs & M & Rs). pose proof (line_clean w _ r l R S Nl C) as L. split; [constructor; assumption|].
    assert (fromJWSString w t = Ok (r, lit "R1")) as J by now apply parse_reads.
    destruct (csv_roundtrip w _ r (lit "R1") J S) as (csv & b & (sg & Sg & G) & C' & B). rewrite C in C'. apply Ok_inj in C'. subst csv.
    assert (canonical_sig r b = r) as Ec.
    { pose proof J as J0. apply fromJWSString_spec in J0 as (_ & f & sg' & Jt & I).
      assert (sg' = sg) as -> by (destruct I as (_ & S2 & _); rewrite Sg in S2; now injection S2).
      apply (proj2 (canonical_sig_id w f sg r b I G)).
      destruct Jt as (h' & p' & hb & pb & gb & Ej & Hh & _ & Hp & _ & Hg & _). rewrite Et in Ej. symmetry in Ej.
      apply dot_unique in Ej as (_ & _ & ->); [exact Cg| | |]; (eapply seg_no_dot; first [apply Hh|apply Hp|apply Hg]). }
    rewrite Ec in B. destruct L as (_ & _ & L). exists ((r, lit "R1") :: rs). cbn [map mapM]. rewrite (strip_nl w l L), B. cbn [bind]. rewrite M.
    split; [reflexivity|]. constructor; assumption. }
  assert (parsed_group w (RGroup rs None [])) as Pg.
  { split; [|intros c [?|[]]; discriminate]. cbn [rg_recs]. clear -Rs. induction Rs; constructor; eauto. }
  destruct (export_doc w [RGroup rs None []] [] Pm) as (doc & gs' & E & D & W & Pl & _); [repeat constructor; apply Pg|constructor|].
  exists doc. split; [|split; [exact Pl|]].
  - unfold csv2json, table. rewrite column_header. assert (Forall (fun l => ~ In c_nl l /\ ~ In 13 l) (csv_header :: lines)) as H.
    { constructor; [|eapply Forall_impl; [|exact Cl]; cbn beta; tauto].
      split; intros H; [assert (existsb (N.eqb c_nl) csv_header = true) as X|assert (existsb (N.eqb 13) csv_header = true) as X];
        try (apply existsb_exists; eexists; split; [exact H|apply N.eqb_refl]); vm_compute in X; discriminate. }
    rewrite newlines_id, lines_table.
    + cbn [map]. rewrite M. cbn [bind]. exact E.
    + eapply Forall_impl; [|exact H]. cbn beta. tauto.
    + intros X. apply in_concat in X as (l & Hl & X). apply in_map_iff in Hl as (l0 & <- & Hl). apply in_app_or in X as [X|[X|[]]]; [|discriminate].
      rewrite Forall_forall in H. destruct (H l0 Hl) as [_ H0]. contradiction.
  - inversion W as [|? g' ? ? (R & C & Ch) W2]; subst. inversion W2; subst. destruct g' as [ts' c' ch']. cbn [gr_texts gr_cert gr_chain rg_recs rg_cert rg_chain] in *. subst.
    assert (ts' = ts) as <-; [|exact D]. clear -T Rs R. revert ts' R. induction Rs as [|t r ts rs J Rs IH]; intros ts' R; inversion R as [|? t' ? ts2 [Q _] R2]; subst; [reflexivity|].
    pose proof (Forall_inv_tail T) as T2. destruct (Forall_inv T) as ((h & p & g & Et & Ch & Cp & _) & _). f_equal; [|now apply IH]. destruct r as [r alg].
    destruct (jws_roundtrip w t r alg J) as (s' & J' & _ & H). cbn [fst snd] in Q. rewrite Q in J'. apply Ok_inj in J'. subst s'. now apply (H h p g Et).
Qed.

Lemma tabular_read w gs : Forall (tabular w) (all_texts gs) -> texts_read w gs.
Proof.
  unfold all_texts. rewrite Forall_flat_map. intros H. eapply Forall_impl; [|exact H]. intros g G. eapply Forall_impl; [|exact G].
  intros t (_ & r & R & _). exists (r, lit "R1"). now apply parse_reads.
Qed.

(** C51 *)
Theorem convert_back w n doc gs : pem_ok w -> plain_names doc -> dep_doc w doc gs -> all_texts gs <> [] -> Forall (tabular w) (all_texts gs) ->
  exists csv doc', json2csv w n doc = Ok csv /\ csv2json w csv = Ok doc' /\ plain_names doc' /\ dep_doc w doc' [Group (all_texts gs) None []].
Proof.
  intros Pm Pl D N T. destruct (json2csv_spec w n doc gs Pl D N (tabular_read w gs T)) as (lines & E & F).
  destruct (csv2json_back w (all_texts gs) lines Pm T F) as (doc' & E' & P' & D'). exists (table lines), doc'. auto.
Qed.

Lemma stamps_texts gs : map fst (text_stamps gs) = all_texts gs.
Proof. induction gs as [|g gs IH]; [reflexivity|]. unfold text_stamps, all_texts in *. cbn [flat_map]. rewrite map_app, IH, map_map. cbn [fst]. now rewrite map_id. Qed.

Lemma certless_stamps gs gs' : certless gs -> certless gs' -> all_texts gs = all_texts gs' ->
  map (fun x => (fst x, fst (snd x))) (text_stamps gs) = map (fun x => (fst x, fst (snd x))) (text_stamps gs').
Proof.
  assert (forall gs, certless gs -> map (fun x => (fst x, fst (snd x))) (text_stamps gs) = map (fun t => (t, None)) (all_texts gs)) as H.
  { clear. intros gs (g & E & N). rewrite <- stamps_texts, map_map. apply map_ext_in. intros [t [c ch]] I. apply in_text_stamps in I as (g0 & G & T & <- & <-).
    assert (In g0 (occupied gs)) as O by (apply in_occupied; split; [exact G|]; intros X; now rewrite X in T). rewrite E in O. destruct O as [<-|[]]. cbn [fst snd]. now rewrite N. }
  intros A B E. now rewrite (H gs A), (H gs' B), E.
Qed.

Theorem convert_verdict w ks key doc doc' gs c idx before reg after c' : hash_ok w -> selects c idx before reg after ->
  dep_is w doc gs -> certless gs -> dep_is w doc' [Group (all_texts gs) None []] ->
  verifyDEP w doc ks key c idx = (c', None) <-> verifyDEP w doc' ks key c idx = (c', None).
Proof.
  intros HO S D C D'.
  assert (all_texts gs <> []) as N.
  { destruct C as (g & E & _). assert (In g (occupied gs)) as O by (rewrite E; now left). apply in_occupied in O as [G T].
    intros X. destruct (gr_texts g) as [|t l] eqn:Eg; [congruence|]. assert (In t (all_texts gs)) as I by (unfold all_texts; apply in_flat_map; exists g; rewrite Eg; split; [exact G|now left]).
    now rewrite X in I. }
  assert (certless [Group (all_texts gs) None []]) as C'.
  { exists (Group (all_texts gs) None []). split; [|reflexivity]. unfold occupied. cbn [filter gr_texts]. now destruct (all_texts gs). }
  assert (all_texts [Group (all_texts gs) None []] = all_texts gs) as Ea by (unfold all_texts at 1; cbn [flat_map gr_texts]; apply app_nil_r).
  assert (forall l, all_texts l <> [] -> text_stamps l <> []) as K by (intros l Hl X; apply Hl; rewrite <- stamps_texts, X; reflexivity).
  rewrite <- !(in_turn_one w ks key (same_register before)). split; intros A.
  - apply (same_receipts w ks key [doc] [doc'] [gs] [[Group (all_texts gs) None []]] c idx before reg after c' HO S) in A; [exact A|..];
      try discriminate; try (repeat constructor; auto; fail).
    + repeat constructor; auto. apply K. now rewrite Ea.
    + cbn [List.concat]. rewrite !app_nil_r. apply certless_stamps; [exact C|exact C'|now rewrite Ea].
  - apply (same_receipts w ks key [doc'] [doc] [[Group (all_texts gs) None []]] [gs] c idx before reg after c' HO S) in A; [exact A|..];
      try discriminate; try (repeat constructor; auto; fail).
    + repeat constructor; auto. apply K. now rewrite Ea.
    + cbn [List.concat]. rewrite !app_nil_r. apply certless_stamps; [exact C'|exact C|now rewrite Ea].
Qed.

Theorem converted_verdict w ks key n doc gs csv doc' c idx before reg after c' : hash_ok w -> pem_ok w -> selects c idx before reg after ->
  plain_names doc -> dep_doc w doc gs -> certless gs -> Forall (tabular w) (all_texts gs) ->
  json2csv w n doc = Ok csv -> csv2json w csv = Ok doc' ->
  verifyDEP w (load doc) ks key c idx = (c', None) <-> verifyDEP w (load doc') ks key c idx = (c', None).
Proof.
  intros HO Pm S Pl D C T J B.
  assert (all_texts gs <> []) as N.
  { destruct C as (g & E & _). assert (In g (occupied gs)) as O by (rewrite E; now left). apply in_occupied in O as [G X].
    intros Y. destruct (gr_texts g) as [|t l] eqn:Eg; [congruence|].
    assert (In t (all_texts gs)) as I by (unfold all_texts; apply in_flat_map; exists g; rewrite Eg; split; [exact G|now left]). now rewrite Y in I. }
  destruct (convert_back w n doc gs Pm Pl D N T) as (csv' & doc'' & J' & B' & P' & D'). rewrite J in J'. apply Ok_inj in J'. subst csv'.
  rewrite B in B'. apply Ok_inj in B'. subst doc''.
  apply (convert_verdict w ks key (load doc) (load doc') gs c idx before reg after c' HO S); [now apply load_doc|exact C|now apply load_doc].
Qed.
