(** Verifying DEPs that were split or merged. *)
From Coq Require Import Lia.
From Verif Require Import PyBase World Codec Receipt DepBase Json Pem KeyStore VerifyReceipt State DepParser Verify DepExport ListFacts CodecFacts SpecReceipt ReceiptFacts
  RoundTrip RoundTrip2 VerifyFacts SpecDep DepFacts SpecCluster ClusterFacts AcceptFacts SeqFacts DepTheorems PartsFacts SpecChunks ChunkFacts DictFacts ParTheorems SpecDoc IncDoc IncBack IncTheorems SpecKeys PemFacts KeyFacts
  SpecMerge MergeFacts SpecExport ExportFacts.
Open Scope N_scope.

(** ** DEPs one after the other *)

(** The receipts are valid for the register. *)
Definition accepts (w : world) (key : option bytes) (c : cluster) (idx : option Z) (items : list item) (c' : cluster) : Prop :=
  exists before reg after reg' p,
    selects c idx before reg after /\ past_of w reg p
    /\ valid_sequence w key (start_of_last before) reg (c_used c) p items
    /\ register_after key reg p items reg'
    /\ c' = Cluster (before ++ reg' :: after) (used_after (c_used c) items).

Lemma verify_accepts w dep ks key c idx c' : hash_ok w ->
  verifyDEP w dep ks key c idx = (c', None) <-> exists items, dep_ok w ks dep items /\ accepts w key c idx items c'.
Proof.
  intros HO. rewrite (verifyDEP_spec w dep ks key c idx c' HO). split.
  - intros (b & r & a & r' & p & items & S & D & P & V & R & E). exists items. split; [exact D|]. exists b, r, a, r', p. auto 10.
  - intros (items & D & b & r & a & r' & p & S & P & V & R & E). exists b, r, a, r', p, items. auto 10.
Qed.

Lemma accepts_app w key c idx before reg after l1 l2 c' :
  selects c idx before reg after -> Forall (fun i => reads w (i_jws i) (i_rec i)) l1 ->
  accepts w key c idx (l1 ++ l2) c' <->
  exists c1, accepts w key c idx l1 c1 /\ accepts w key c1 (same_register before) l2 c'.
Proof.
  intros Sl Rd. split.
  - intros (b & r & a & reg' & p & S & P & V & R & ->).
    destruct (selects_fun _ _ _ _ _ _ _ _ Sl S) as (<- & <- & <-).
    assert (V' := V). apply valid_app in V' as [V1 V2].
    apply (register_after_iff _ _ _ _ _ _ _ _ V) in R. fold (SeqFacts.after key reg p (l1 ++ l2)) in R.
    exists (Cluster (before ++ SeqFacts.after key reg p l1 :: after) (used_after (c_used c) l1)). split.
    + exists before, reg, after, (SeqFacts.after key reg p l1), p.
      split; [exact S|]. split; [exact P|]. split; [exact V1|]. split; [|reflexivity].
      now apply (register_after_iff _ _ _ _ _ _ _ _ V1).
    + exists before, (SeqFacts.after key reg p l1), after, reg', (last_of p l1).
      split; [now apply (selects_again c idx _ reg)|]. split; [now apply past_after|].
      cbn [c_used]. split; [exact V2|]. split; [|now rewrite used_after_app].
      apply (register_after_iff _ _ _ _ _ _ _ _ V2). rewrite R. apply after_app.
  - intros (c1 & (b & r & a & reg1 & p & S & P & V1 & R1 & ->) & (b2 & r2 & a2 & reg2 & p2 & S2 & P2 & V2 & R2 & ->)).
    destruct (selects_fun _ _ _ _ _ _ _ _ Sl S) as (<- & <- & <-).
    assert (selects (Cluster (before ++ reg1 :: after) (used_after (c_used c) l1)) (same_register before) before reg1 after)
      as S2' by now apply (selects_again c idx _ reg).
    destruct (selects_fun _ _ _ _ _ _ _ _ S2' S2) as (<- & <- & <-).
    apply (register_after_iff _ _ _ _ _ _ _ _ V1) in R1. fold (SeqFacts.after key reg p l1) in R1. subst reg1.
    rewrite (past_of_fun _ _ _ _ P2 (past_after _ key _ _ _ P Rd)) in *. cbn [c_used] in *.
    apply (register_after_iff _ _ _ _ _ _ _ _ V2) in R2.
    assert (valid_sequence w key (start_of_last before) reg (c_used c) p (l1 ++ l2)) as V by (apply valid_app; auto).
    exists before, reg, after, reg2, p.
    split; [exact S|]. split; [exact P|]. split; [exact V|]. split; [|now rewrite used_after_app].
    apply (register_after_iff _ _ _ _ _ _ _ _ V). rewrite R2. symmetry.
    fold (SeqFacts.after key reg p (l1 ++ l2)). apply after_app.
Qed.

Lemma dep_ok_reads w ks dep items : dep_ok w ks dep items -> Forall (fun i => reads w (i_jws i) (i_rec i)) items.
Proof. intros (gs & _ & _ & F & _). now apply text_items_read in F. Qed.

Lemma in_turn_spec w ks key before deps : hash_ok w -> forall c idx reg after c', selects c idx before reg after -> deps <> [] ->
  accepted_in_turn w ks key (same_register before) deps c idx c' <->
  exists itemss, Forall2 (dep_ok w ks) deps itemss /\ accepts w key c idx (List.concat itemss) c'.
Proof.
  intros HO. induction deps as [|dep deps IH]; intros c idx reg after c' S N; [congruence|]. clear N. cbn [accepted_in_turn].
  destruct deps as [|dep' deps].
  - cbn [accepted_in_turn]. split.
    + intros (c1 & V & ->). apply verify_accepts in V as (items & D & A); [|exact HO]. exists [items]. split; [repeat constructor; exact D|].
      cbn [List.concat]. now rewrite app_nil_r.
    + intros (itemss & F & A). inversion F as [|? items ? r D F']; subst. inversion F'; subst. cbn [List.concat] in A. rewrite app_nil_r in A.
      exists c'. split; [|reflexivity]. apply verify_accepts; [exact HO|]. eauto.
  - split.
    + intros (c1 & V & T). apply verify_accepts in V as (items & D & A); [|exact HO].
      assert (exists reg1, selects c1 (same_register before) before reg1 after) as (reg1 & S1).
      { destruct A as (b & r & a & reg1 & p & S1 & _ & _ & _ & ->). destruct (selects_fun _ _ _ _ _ _ _ _ S S1) as (<- & <- & <-).
        exists reg1. now apply (selects_again c idx _ reg). }
      apply (IH c1 _ reg1 after c' S1) in T as (itemss & F & A2); [|discriminate].
      exists (items :: itemss). split; [now constructor|]. cbn [List.concat].
      apply (accepts_app w key c idx before reg after); [exact S|now apply dep_ok_reads in D|]. eauto.
    + intros (itemss & F & A). inversion F as [|? items ? r D F']; subst. cbn [List.concat] in A.
      apply (accepts_app w key c idx before reg after) in A as (c1 & A1 & A2); [|exact S|now apply dep_ok_reads in D].
      exists c1. split; [apply verify_accepts; [exact HO|eauto]|].
      assert (exists reg1, selects c1 (same_register before) before reg1 after) as (reg1 & S1).
      { destruct A1 as (b & x & a & reg1 & p & S1 & _ & _ & _ & ->). destruct (selects_fun _ _ _ _ _ _ _ _ S S1) as (<- & <- & <-).
        exists reg1. now apply (selects_again c idx _ reg). }
      apply (IH c1 _ reg1 after c' S1); [discriminate|]. eauto.
Qed.

(** ** Receipts of several DEPs *)

Lemma dep_texts_stamps ks gs : dep_texts ks gs = map (fun x => (fst x, verifier_of ks (fst (snd x)))) (text_stamps gs).
Proof.
  induction gs as [|g gs IH]; [reflexivity|]. unfold dep_texts, text_stamps in *. cbn [flat_map]. now rewrite IH, map_app, map_map.
Qed.
Lemma text_stamps_app a b : text_stamps (a ++ b) = text_stamps a ++ text_stamps b.
Proof. apply flat_map_app. Qed.
Lemma text_stamps_concat gss : text_stamps (List.concat gss) = flat_map text_stamps gss.
Proof. induction gss; [reflexivity|]. cbn [List.concat flat_map]. now rewrite text_stamps_app, IHgss. Qed.

Lemma occupied_stamps gs : occupied gs <> [] <-> text_stamps gs <> [].
Proof.
  rewrite (occupied_nonempty [] gs), dep_texts_stamps. destruct (text_stamps gs); cbn [map]; split; congruence.
Qed.

Lemma joint_spec w ks deps gss : Forall2 (dep_is w) deps gss -> forall items,
  (exists itemss, Forall2 (dep_ok w ks) deps itemss /\ items = List.concat itemss) <->
  Forall (fun gs => trust_rule w ks (occupied gs)) gss /\ Forall (fun gs => text_stamps gs <> []) gss
  /\ Forall2 (text_item w) (map (fun x => (fst x, verifier_of ks (fst (snd x)))) (text_stamps (List.concat gss))) items.
Proof.
  intros F. induction F as [|dep gs deps gss D F IH]; intros items.
  - split.
    + intros (itemss & F & ->). inversion F. split; [constructor|]. split; constructor.
    + intros (_ & _ & F). inversion F. exists []. split; [constructor|reflexivity].
  - cbn [List.concat]. rewrite text_stamps_app, map_app. split.
    + intros (itemss & F2 & ->). inversion F2 as [|? l ? r (gs' & D' & T & Fi & N) F2']; subst.
      rewrite (dep_is_fun _ _ _ _ D' D) in *. destruct (proj1 (IH (List.concat r))) as (T' & N' & Fi'); [eauto|].
      split; [now constructor|]. split; [constructor; [|exact N']|].
      * intros E. rewrite dep_texts_stamps, E in Fi. inversion Fi. congruence.
      * cbn [List.concat]. apply Forall2_app; [|exact Fi']. now rewrite <- dep_texts_stamps.
    + intros (T & N & Fi). inversion T; inversion N; subst. apply Forall2_app_inv_l in Fi as (l1 & l2 & Fi1 & Fi2 & ->).
      destruct (proj2 (IH l2)) as (r & Fr & ->); [auto|]. exists (l1 :: r). split; [|reflexivity]. constructor; [|exact Fr].
      exists gs. split; [exact D|]. split; [assumption|]. rewrite dep_texts_stamps. split; [exact Fi1|].
      intros ->. inversion Fi1 as [E|]. symmetry in E. apply map_eq_nil in E. congruence.
Qed.

(** Trust *)
Definition stamp_trusted (w : world) (ks : keystore) (x : option cert * list cert) : Prop :=
  exists c, fst x = Some c /\ trusted w ks c (snd x).

Lemma in_text_stamps t c ch gs : In (t, (c, ch)) (text_stamps gs) <-> exists g, In g gs /\ In t (gr_texts g) /\ gr_cert g = c /\ gr_chain g = ch.
Proof.
  unfold text_stamps. rewrite in_flat_map. split.
  - intros (g & G & H). apply in_map_iff in H as (b' & E & H). injection E as <- <- <-. eauto.
  - intros (g & G & H & <- & <-). exists g. split; [exact G|]. apply in_map_iff. eauto.
Qed.

Lemma in_occupied g gs : In g (occupied gs) <-> In g gs /\ gr_texts g <> [].
Proof. unfold occupied. rewrite filter_In. destruct (gr_texts g); split; intros [A B]; split; congruence || assumption. Qed.

Lemma occupied_stamp (P : option cert * list cert -> Prop) gs :
  Forall (fun g => P (gr_cert g, gr_chain g)) (occupied gs) <-> Forall P (map snd (text_stamps gs)).
Proof.
  rewrite !Forall_forall. split.
  - intros H x Hx. apply in_map_iff in Hx as ([t [c ch]] & <- & Hx). apply in_text_stamps in Hx as (g & G & T & <- & <-).
    apply (H g). apply in_occupied. split; [exact G|]. intros E. now rewrite E in T.
  - intros H g Hg. apply in_occupied in Hg as [G N]. destruct (gr_texts g) as [|t l] eqn:E; [congruence|]. apply H.
    apply in_map_iff. exists (t, (gr_cert g, gr_chain g)). split; [reflexivity|]. apply in_text_stamps. exists g. rewrite E. split; [exact G|]. split; [now left|auto].
Qed.

Lemma trust_all w ks gs : Forall (fun x => fst x <> None) (map snd (text_stamps gs)) ->
  trust_rule w ks (occupied gs) <-> Forall (stamp_trusted w ks) (map snd (text_stamps gs)).
Proof.
  intros C. rewrite <- occupied_stamp in *. unfold trust_rule, stamp_trusted. cbn [fst snd] in *. split; [|now left].
  intros [T|(g & E & N)]; [exact T|]. rewrite E in C. inversion C. congruence.
Qed.

Lemma trust_all_parts w ks gss : Forall (fun x => fst x <> None) (map snd (text_stamps (List.concat gss))) ->
  Forall (fun gs => trust_rule w ks (occupied gs)) gss <-> Forall (stamp_trusted w ks) (map snd (text_stamps (List.concat gss))).
Proof.
  induction gss as [|gs gss IH]; cbn [List.concat]; intros C; [split; constructor|].
  rewrite text_stamps_app, map_app in *. apply Forall_app in C as [C1 C2]. rewrite Forall_app, <- (IH C2), <- (trust_all w ks gs C1).
  split; [intros F; inversion F; auto|]. intros [A B]. now constructor.
Qed.

Lemma certless_trust w ks gs : certless gs -> trust_rule w ks (occupied gs).
Proof. intros (g & E & N). right. eauto. Qed.

(** Two sequences of DEPs with the same receipts *)
Theorem same_receipts w ks key deps deps' gss gss' c idx before reg after c' : hash_ok w ->
  selects c idx before reg after -> deps <> [] -> deps' <> [] ->
  Forall2 (dep_is w) deps gss -> Forall2 (dep_is w) deps' gss' ->
  Forall (fun gs => text_stamps gs <> []) gss -> Forall (fun gs => text_stamps gs <> []) gss' ->
  map (fun x => (fst x, fst (snd x))) (text_stamps (List.concat gss)) = map (fun x => (fst x, fst (snd x))) (text_stamps (List.concat gss')) ->
  (Forall (fun gs => trust_rule w ks (occupied gs)) gss -> Forall (fun gs => trust_rule w ks (occupied gs)) gss') ->
  accepted_in_turn w ks key (same_register before) deps c idx c' ->
  accepted_in_turn w ks key (same_register before) deps' c idx c'.
Proof.
  intros HO S N N' D D' O O' E T A. apply (in_turn_spec w ks key before deps HO c idx reg after c' S N) in A as (itemss & F & A).
  apply (in_turn_spec w ks key before deps' HO c idx reg after c' S N').
  destruct (proj1 (joint_spec w ks deps gss D (List.concat itemss))) as (T1 & _ & Fi); [eauto|].
  destruct (proj2 (joint_spec w ks deps' gss' D' (List.concat itemss))) as (itemss' & F' & E'); [|rewrite E' in A; eauto].
  split; [now apply T|]. split; [exact O'|].
  assert (forall l : list (str * (option cert * list cert)), map (fun x => (fst x, verifier_of ks (fst (snd x)))) l =
    map (fun y => (fst y, verifier_of ks (snd y))) (map (fun x => (fst x, fst (snd x))) l)) as M by (intros; now rewrite map_map).
  rewrite M in *. now rewrite <- E.
Qed.

Lemma in_turn_one w ks key register dep c idx c' : accepted_in_turn w ks key register [dep] c idx c' <-> verifyDEP w dep ks key c idx = (c', None).
Proof. cbn [accepted_in_turn]. split; [intros (c1 & V & ->); exact V|]. intros V. eauto. Qed.

(** ** Rewritten receipts *)

Lemma adapt_text w b r : adaptReceipt w b = Ok r -> fromJWSString w b = Ok r.
Proof.
  unfold adaptReceipt. intros H. destruct (expandDEPReceipt b) as [s|] eqn:E; [|discriminate]. cbn [bind] in H.
  destruct (text_read w s r H) as [U _]. destruct (expand_shrink b) as [(s' & E' & S)|E']; [|congruence].
  rewrite E in E'. apply Ok_inj in E'. subst s'. unfold shrinkDEPReceipt in S. rewrite U in S. apply Ok_inj in S. now subst b.
Qed.

Lemma rewritten w b r t : adaptReceipt w b = Ok r -> canonical_text b -> toJWSString (fst r) (snd r) = Ok t -> t = b.
Proof.
  intros A (h & p & g & E & Ch & Cp) J. apply adapt_text in A. destruct r as [r alg]. destruct (jws_roundtrip w b r alg A) as (s' & J' & _ & H).
  cbn [fst snd] in J. rewrite J in J'. apply Ok_inj in J'. subst s'. now apply (H h p g E).
Qed.

Lemma written_stamps w gs gs' : Forall2 (written w) gs gs' ->
  Forall2 (fun y z => toJWSString (fst (fst y)) (snd (fst y)) = Ok (fst z) /\ snd z = snd y) (stamps gs) (text_stamps gs').
Proof.
  intros F. induction F as [|g g' gs gs' (R & C & H) F IH]; [constructor|]. rewrite stamps_cons. unfold text_stamps in *. cbn [flat_map].
  apply Forall2_app; [|exact IH]. rewrite C, H. clear -R. induction R as [|r t l l' [J _] R IH]; [constructor|]. cbn [map]. constructor; auto.
Qed.

Definition cs {X} (l : list (X * (option cert * list cert))) : list (X * option cert) := map (fun x => (fst x, fst (snd x))) l.

Lemma cs_stamps {A} (gs : list (rgroup A)) : cs (stamps gs) = cert_stamps gs.
Proof. induction gs as [|g gs IH]; [reflexivity|]. unfold cs in *. rewrite stamps_cons, cert_stamps_cons, map_app, map_map, IH. reflexivity. Qed.

(** Texts in, texts out *)
Lemma texts_back w l m n : Forall (fun x => canonical_text (fst x)) l ->
  Forall2 (fun (x : bytes * (option cert * list cert)) (y : rtuple * (option cert * list cert)) => adaptReceipt w (fst x) = Ok (fst y) /\ snd x = snd y) l m ->
  Forall2 (fun y (z : str * (option cert * list cert)) => toJWSString (fst (fst y)) (snd (fst y)) = Ok (fst z) /\ snd z = snd y) m n -> n = l.
Proof.
  intros C F. revert n. induction F as [|x y l m (A & E) F IH]; intros n G; inversion G as [|? z ? n' (J & E') G']; subst; [reflexivity|].
  inversion C; subst. f_equal; [|now apply IH]. destruct x as [b s], z as [t s']. cbn [fst snd] in *. f_equal; [|rewrite E; exact E']. now apply (rewritten w b (fst y)).
Qed.
(** The same for certificates only, with the chains of [m'] instead *)
Lemma texts_back_certs w l m m' n : Forall (fun x => canonical_text (fst x)) l ->
  Forall2 (fun (x : bytes * (option cert * list cert)) (y : rtuple * (option cert * list cert)) => adaptReceipt w (fst x) = Ok (fst y) /\ snd x = snd y) l m ->
  cs m' = cs m ->
  Forall2 (fun y (z : str * (option cert * list cert)) => toJWSString (fst (fst y)) (snd (fst y)) = Ok (fst z) /\ snd z = snd y) m' n -> cs n = cs l.
Proof.
  intros C F. revert m' n. induction F as [|x y l m (A & E) F IH]; intros m' n Em G.
  - apply map_eq_nil in Em. subst m'. inversion G. reflexivity.
  - destruct m' as [|y' m']; [discriminate|]. inversion G as [|? z ? n' (J & E') G']; subst. inversion C; subst.
    unfold cs in Em. cbn [map] in Em. injection Em as E1 E2 Em. unfold cs in *. cbn [map]. rewrite (IH ltac:(assumption) m' n' Em G'). f_equal.
    destruct x as [b s], z as [t s'], y as [r u], y' as [r' u']. cbn [fst snd] in *. subst. f_equal; [now apply (rewritten w b r)|exact E2].
Qed.

Lemma readable_stamps w gs dgs : Forall2 encoded gs dgs -> (forall b x, In (b, x) (stamped dgs) -> exists r, adaptReceipt w b = Ok r) ->
  stamped dgs = text_stamps gs.
Proof.
  intros Enc. induction Enc as [|g dg gs dgs (R & C & H) F IH]; intros Rd; [reflexivity|].
  rewrite stamped_cons in *. unfold text_stamps in *. cbn [flat_map]. rewrite IH by (intros b x I; apply (Rd b x); apply in_or_app; now right).
  rewrite <- C, <- H. f_equal. f_equal.
  assert (forall b, In b (g_recs dg) -> exists r, adaptReceipt w b = Ok r) as Rb.
  { intros b I. apply (Rd b (g_cert dg, g_chain dg)). apply in_or_app. left. apply in_map_iff. eauto. }
  clear -R Rb. induction R as [|t b l l' E R IH]; [reflexivity|]. f_equal; [|apply IH; intros; apply Rb; now right].
  destruct (Rb b (or_introl eq_refl)) as (r & A). apply adapt_text in A. apply text_read in A as [U _].
  destruct (shrink_expand t) as [(b' & S1 & S2)|S1]; unfold shrinkDEPReceipt in S1; [|congruence].
  rewrite E in S1. apply Ok_inj in S1. subst b'. destruct (shrink_expand b) as [(b' & S1 & S3)|S1]; unfold shrinkDEPReceipt in S1; [|congruence].
  rewrite U in S1. apply Ok_inj in S1. subst b'. rewrite S2 in S3. now apply Ok_inj in S3.
Qed.

(** Certificates that were read from a text *)
Definition loaded (w : world) (c : cert) : Prop := exists t, loadCert w t = Ok c.
Definition certs_loaded_in (w : world) (l : list (option cert * list cert)) : Prop :=
  Forall (fun x => (forall c, fst x = Some c -> loaded w c) /\ Forall (loaded w) (snd x)) l.

Lemma cert_text_loaded w s c : cert_text w s c -> loaded w c.
Proof.
  unfold cert_text, parseDEPCert. intros H. exists (addPEMCertHeaders s). destruct (loadCert w (addPEMCertHeaders s)) as [x|e]; cbn [catch] in H; [exact H|].
  destruct (value_error e); discriminate.
Qed.

Lemma dep_loaded w dep gs : dep_is w dep gs -> Forall (fun g => (forall c, gr_cert g = Some c -> loaded w c) /\ Forall (loaded w) (gr_chain g)) gs.
Proof.
  intros (d & js & _ & _ & F). induction F as [|j g js gs (d' & jr & sc & chain & _ & _ & _ & _ & C & _ & Ch) F IH]; constructor; [|exact IH]. split.
  - intros c Ec. destruct C as [[_ E]|(_ & c' & T & E)]; [congruence|]. rewrite E in Ec. injection Ec as <-. now apply cert_text_loaded in T.
  - clear -Ch. induction Ch; constructor; [now apply cert_text_loaded in H|assumption].
Qed.

Lemma stamps_loaded w dep gs : dep_is w dep gs -> certs_loaded_in w (map snd (text_stamps gs)).
Proof.
  intros D. apply dep_loaded in D. unfold certs_loaded_in. rewrite Forall_forall in *. intros x Hx. apply in_map_iff in Hx as ([t [c ch]] & <- & Hx).
  apply in_text_stamps in Hx as (g & G & _ & <- & <-). exact (D g G).
Qed.

Lemma read_parsed w dgs gs : Forall2 (read_group w) dgs gs -> full dgs -> certs_loaded_in w (map snd (stamped dgs)) -> Forall (parsed_group w) gs.
Proof.
  intros F. induction F as [|dg g dgs gs (R & C & H) F IH]; intros Fu L; [constructor|]. inversion Fu as [|? ? N Fu']; subst.
  rewrite stamped_cons, map_app in L. apply Forall_app in L as [L1 L2]. constructor; [|now apply IH]. split.
  - clear -R. induction R as [|b r l l' A R IH]; constructor; [|exact IH]. exists b. now apply adapt_text.
  - rewrite C, H. destruct (g_recs dg) as [|b bs]; [congruence|]. cbn [map snd] in L1. inversion L1 as [|? ? [X Y] _]; subst. cbn [fst snd] in *.
    intros c [E|I]; [now apply X|]. rewrite Forall_forall in Y. now apply Y.
Qed.

(** ** split.py *)

Lemma kind_chunks w kind doc n chunks : plain_names doc -> kind <> P_certless -> parse_inc w kind doc n = (chunks, None) ->
  exists gs dgs, dep_doc w doc gs /\ Forall2 encoded gs dgs /\ filled dgs <> [] /\ chunks = inc_chunks n dgs.
Proof.
  intros P K H. destruct kind; [|congruence|].
  - apply file_exact; [exact P|]. exact (stream_loop w doc n _ _ _ _ H P_file).
  - now apply file_exact.
Qed.

Lemma doc_stamps_fun w doc gs gs' : dep_doc w doc gs -> dep_doc w doc gs' -> gs = gs'.
Proof. intros D D'. apply (dep_is_fun w (load doc)); now apply load_doc. Qed.

(** A file and the chunk it was made of *)
Definition file_of (w : world) (c : chunk) (f : json) (gs : list group) : Prop :=
  dep_doc w f gs /\ plain_names f
  /\ exists rgs, Forall2 (read_group w) c rgs /\ Forall2 (written w) rgs gs.

Lemma split_file w c f : pem_ok w -> full c -> certs_loaded_in w (map snd (stamped c)) ->
  export w (receiptGroupAdapter w ([c], None)) [] = Ok f -> exists gs, file_of w c f gs.
Proof.
  intros P Fu L E. destruct (receiptGroupAdapter w ([c], None)) as [rgs [e|]] eqn:A.
  - unfold export in E. cbn [fst snd] in E. destruct (mapM (exportGroup w) rgs); discriminate.
  - apply adapter_spec in A as [F _]. cbn [List.concat] in F. rewrite app_nil_r in F. assert (G := read_parsed w c rgs F Fu L).
    destruct (export_doc w rgs [] P G ltac:(constructor)) as (dep & gs & E' & D & W & Pl & _). rewrite E in E'. apply Ok_inj in E'. subst dep.
    exists gs. split; [exact D|]. split; [exact Pl|]. eauto.
Qed.

Lemma split_files w kind doc n files : pem_ok w -> plain_names doc -> kind <> P_certless -> split_py w kind doc n = (files, None) ->
  exists gs dgs gss, dep_doc w doc gs /\ Forall2 encoded gs dgs /\ filled dgs <> [] /\ parse_inc w kind doc n = (inc_chunks n dgs, None)
    /\ List.length (inc_chunks n dgs) = List.length files
    /\ Forall2 (fun cf gs => file_of w (fst cf) (snd cf) gs) (combine (inc_chunks n dgs) files) gss
    /\ stamped dgs = text_stamps gs.
Proof.
  intros P Pl K E. unfold split_py in E. apply map_list_ok' in E as [F En].
  destruct (parse_inc w kind doc n) as [chunks e] eqn:Ep. cbn [fst snd] in *. subst e.
  destruct (kind_chunks w kind doc n chunks Pl K Ep) as (gs & dgs & D & Enc & NF & ->).
  destruct (inc_faithful n dgs) as (S & Fu & NE & _).
  assert (forall b x, In (b, x) (stamped dgs) -> exists r, adaptReceipt w b = Ok r) as Rd.
  { rewrite <- S. clear -F. induction F as [|c f cs fs E F IH]; intros b x I; [destruct I|]. cbn [flat_map] in I. apply in_app_or in I as [I|I]; [|now apply (IH b x)].
    destruct (receiptGroupAdapter w ([c], None)) as [rgs [e|]] eqn:A.
    - unfold export in E. cbn [fst snd] in E. destruct (mapM (exportGroup w) rgs); discriminate.
    - apply adapter_spec in A as [Fr _]. cbn [List.concat] in Fr. rewrite app_nil_r in Fr. apply read_stamps in Fr.
      clear -Fr I. induction Fr as [|[b' x'] y l l' [A _] G IH]; [destruct I|]. destruct I as [E|I]; [|now apply IH]. injection E as -> ->. eauto. }
  assert (stamped dgs = text_stamps gs) as St by exact (readable_stamps w gs dgs Enc Rd).
  assert (certs_loaded_in w (map snd (stamped dgs))) as L by (rewrite St; apply (stamps_loaded w (load doc)); now apply load_doc).
  exists gs, dgs.
  assert (exists gss, Forall2 (fun cf gs => file_of w (fst cf) (snd cf) gs) (combine (inc_chunks n dgs) files) gss) as (gss & Fg).
  { rewrite <- S in L. clear -F P Fu L. revert Fu L. induction F as [|c f cs fs E F IH]; intros Fu L; [exists []; constructor|].
    inversion Fu; subst. cbn [flat_map] in L. rewrite map_app in L. apply Forall_app in L as [L1 L2].
    destruct (split_file w c f P) as (g & G); [assumption..|]. destruct IH as (gss & Fg); [assumption..|]. exists (g :: gss). cbn [combine]. constructor; [exact G|exact Fg]. }
  exists gss. split; [exact D|]. split; [exact Enc|]. split; [exact NF|]. split; [reflexivity|]. split; [|split; [exact Fg|exact St]].
  clear -F. induction F; [reflexivity|]. cbn [List.length]. now rewrite IHF.
Qed.

Lemma file_certless w c f gs : file_of w c f gs -> List.length c = 1%nat -> full c -> (exists dg, c = [dg] /\ g_cert dg = None) -> certless gs.
Proof.
  intros (_ & _ & rgs & R & W) _ Fu (dg & -> & N). inversion R as [|? g ? r (Rr & Rc & _) R']; subst. inversion R'; subst.
  inversion W as [|? g' ? r' (Wr & Wc & _) W']; subst. inversion W'; subst. exists g'. split; [|congruence].
  inversion Fu as [|? ? Ne _]; subst. unfold occupied. cbn [filter]. inversion Wr as [E1 E2|]; [|reflexivity].
  rewrite <- E1 in Rr. inversion Rr. congruence.
Qed.

Theorem split_verify w kind doc n files gs ks key c idx before reg after c' : hash_ok w -> pem_ok w -> kind <> P_certless ->
  plain_names doc -> dep_doc w doc gs -> canonical_texts gs -> certs_or_one gs ->
  split_py w kind doc n = (files, None) -> selects c idx before reg after ->
  verifyDEP w (load doc) ks key c idx = (c', None) <->
  accepted_in_turn w ks key (same_register before) (map load files) c idx c'.
Proof.
  intros HO P K Pl D Ca Ce E Sl. destruct (split_files w kind doc n files P Pl K E) as (gs' & dgs & gss & D' & Enc & NF & _ & Le & Fg & St).
  rewrite (doc_stamps_fun w doc gs' gs D' D) in *. clear gs' D'. destruct (inc_faithful n dgs) as (S & Fu & NE & One).
  assert (Forall (fun x => canonical_text (fst x)) (stamped dgs)) as Cs.
  { rewrite St. apply Forall_forall. intros [t [x y]] I. apply in_text_stamps in I as (g & G & T & _). unfold canonical_texts in Ca. rewrite Forall_forall in Ca.
    specialize (Ca g G). rewrite Forall_forall in Ca. now apply Ca. }
  (* the files contain the texts of their chunks *)
  assert (map text_stamps gss = map stamped (inc_chunks n dgs) /\ Forall2 (dep_is w) (map load files) gss) as [Tx Di].
  { rewrite <- S in Cs. revert Le Fg Cs. generalize (inc_chunks n dgs). intros l. clear. revert files gss.
    induction l as [|ch l IH]; intros [|f fs] gss Le Fg Cs; try discriminate; cbn [combine] in Fg; inversion Fg as [|? g ? r (Df & _ & rgs & R & W) Fg']; subst.
    - split; [reflexivity|constructor].
    - cbn [flat_map] in Cs. apply Forall_app in Cs as [C1 C2]. destruct (IH fs r) as [I1 I2]; [cbn in Le; congruence|exact Fg'|exact C2|].
      cbn [map]. split; [|constructor; [now apply load_doc|exact I2]]. f_equal; [|exact I1].
      exact (texts_back w _ _ _ C1 (read_stamps w _ _ R) (written_stamps w _ _ W)). }
  assert (text_stamps (List.concat gss) = text_stamps gs) as Eq.
  { rewrite text_stamps_concat, <- St, <- S, !flat_map_concat_map. now rewrite Tx. }
  assert (Forall (fun g => text_stamps g <> []) gss) as O'.
  { assert (Forall (fun x => x <> []) (map text_stamps gss)) as X; [|now rewrite Forall_map in X].
    rewrite Tx, Forall_map. rewrite Forall_forall in *. intros ch Hc H. specialize (Fu ch Hc). specialize (NE ch Hc).
    destruct ch as [|dg ch]; [congruence|]. inversion Fu as [|? ? Ne _]; subst. rewrite stamped_cons in H. destruct (g_recs dg); [congruence|discriminate]. }
  assert (text_stamps gs <> []) as O.
  { rewrite <- St, <- stamped_filter. change (filter has_receipts dgs) with (filled dgs). intros H. pose proof (filled_full dgs) as Ff.
    destruct (filled dgs) as [|dg l]; [congruence|]. inversion Ff as [|? ? Ne _]; subst. rewrite stamped_cons in H. destruct (g_recs dg); [congruence|discriminate]. }
  assert (files <> []) as Nf.
  { destruct files; [|discriminate]. destruct gss; [|inversion Di]. cbn [List.concat] in Eq. rewrite <- Eq in O. now contradiction O. }
  assert (Forall (fun g => trust_rule w ks (occupied g)) [gs] <-> Forall (fun g => trust_rule w ks (occupied g)) gss) as T.
  { assert (all_certs (occupied gs) \/ certless gs) as [A|A].
    { destruct Ce as [A|A]; [now left|]. destruct (occupied gs) as [|g [|? ?]] eqn:Eo; try discriminate. destruct (gr_cert g) eqn:Ec.
      - left. unfold all_certs. constructor; [congruence|constructor].
      - right. exists g. auto. }
    - assert (Forall (fun x => fst x <> None) (map snd (text_stamps gs))) as A' by (apply occupied_stamp; exact A).
      rewrite (trust_all_parts w ks gss) by (rewrite Eq; exact A'). rewrite Eq. rewrite <- (trust_all w ks gs A').
      split; [intros X; now inversion X|]. intros X. now constructor.
    - split; intros _; [|constructor; [now apply certless_trust|constructor]].
      assert (exists dg, filled dgs = [dg] /\ g_cert dg = None) as (dg & Ed & Nc).
      { destruct A as (g & Eo & Nc). pose proof (filled_occupied _ _ Enc) as X. rewrite Eo in X. inversion X as [|? dg ? r (_ & C & _) X']; subst. inversion X'; subst.
        exists dg. split; [congruence|congruence]. }
      specialize (One dg Ed).
      assert (forall ch dg', In ch (inc_chunks n dgs) -> In dg' ch -> g_cert dg' = None) as Nall.
      { intros ch dg' Hc Hd. assert (certs_in (List.concat (inc_chunks n dgs)) (g_cert dg', g_chain dg')) as Ci.
        { apply full_certs; [now apply Forall_concat|]. apply in_concat. eauto. }
        apply (faithful_certs _ _ _ (inc_faithful n dgs)) in Ci as (g0 & H0 & _ & E0). rewrite Ed in H0. destruct H0 as [<-|[]]. congruence. }
      revert Fg Le One Fu Nall. generalize (inc_chunks n dgs). intros l. clear. revert files gss.
      induction l as [|ch l IH]; intros [|f fs] gss Fg Le One Fu Nall; try discriminate; cbn [combine] in Fg; inversion Fg as [|? g ? r Ff Fg']; subst; [constructor|].
      inversion One; inversion Fu; subst. constructor; [|apply (IH fs r); try assumption; [cbn in Le; congruence|intros ? ? ?; apply Nall; now right]].
      apply certless_trust. apply (file_certless w ch f g Ff); [assumption|assumption|].
      destruct ch as [|x [|? ?]]; try discriminate. exists x. split; [reflexivity|]. apply (Nall [x] x); [now left|now left]. }
  rewrite <- (in_turn_one w ks key (same_register before) (load doc)).
  assert (Forall2 (dep_is w) [load doc] [gs]) as D1 by (repeat constructor; now apply load_doc).
  assert (map load files <> []) as Nf' by (destruct files; [congruence|discriminate]).
  assert (cs (text_stamps (List.concat [gs])) = cs (text_stamps (List.concat gss))) as Ecs by (cbn [List.concat]; rewrite app_nil_r; now rewrite Eq).
  split; intros A.
  - apply (same_receipts w ks key [load doc] (map load files) [gs] gss c idx before reg after c' HO Sl); try assumption; [discriminate|repeat constructor; assumption|apply T].
  - apply (same_receipts w ks key (map load files) [load doc] gss [gs] c idx before reg after c' HO Sl); try assumption; [discriminate|repeat constructor; assumption|now symmetry|apply T].
Qed.

(** split.py writes files if the receipts can be read. *)

Lemma texts_encoded w gs : texts_read w gs -> exists dgs, Forall2 encoded gs dgs
  /\ Forall (fun dg => Forall (fun b => exists r, adaptReceipt w b = Ok r) (g_recs dg)) dgs.
Proof.
  intros T. induction gs as [|g gs IH]; [exists []; split; constructor|]. inversion T as [|? ? T1 T2]; subst. destruct (IH T2) as (dgs & E & R).
  exists (DGroup (gr_texts g) (gr_cert g) (gr_chain g) :: dgs). split; constructor; try assumption; cbn [g_recs].
  - split; [|auto]. cbn [g_recs]. clear -T1. induction T1 as [|t l (r & J) T IH]; constructor; [|exact IH]. now apply text_read in J.
  - clear -T1. induction T1 as [|t l (r & J) T IH]; constructor; [|exact IH]. apply text_read in J as [_ A]. eauto.
Qed.

Lemma occupied_filled gs dgs : Forall2 encoded gs dgs -> text_stamps gs <> [] -> filled dgs <> [].
Proof.
  intros E N F. pose proof (filled_occupied _ _ E) as X. rewrite F in X. inversion X as [Y|]. apply occupied_stamps in N. congruence.
Qed.

Theorem split_exists w doc n gs : pem_ok w -> plain_names doc -> dep_doc w doc gs -> text_stamps gs <> [] -> texts_read w gs ->
  exists files, split_py w P_file doc n = (files, None).
Proof.
  intros P Pl D N T. destruct (texts_encoded w gs T) as (dgs & E & R). unfold split_py.
  rewrite (file_chunks w doc n gs dgs D Pl E (occupied_filled _ _ E N)). cbn [fst snd].
  destruct (inc_faithful n dgs) as (S & Fu & _ & _).
  assert (forall b x, In (b, x) (stamped dgs) -> exists r, adaptReceipt w b = Ok r) as Rd.
  { intros b x I. unfold stamped in I. apply in_flat_map in I as (dg & G & I). apply in_map_iff in I as (b' & Eb & I). injection Eb as <- _.
    rewrite Forall_forall in R. specialize (R dg G). rewrite Forall_forall in R. now apply R. }
  assert (certs_loaded_in w (map snd (stamped dgs))) as L.
  { rewrite (readable_stamps w gs dgs E Rd). apply (stamps_loaded w (load doc)). now apply load_doc. }
  rewrite <- S in *. revert Fu Rd L. generalize (inc_chunks n dgs). clear -P. intros l. induction l as [|c l IH]; intros Fu Rd L.
  - exists []. reflexivity.
  - inversion Fu as [|? ? F1 F2]; subst. cbn [flat_map] in Rd, L. rewrite map_app in L. apply Forall_app in L as [L1 L2].
    destruct IH as (files & Ef); [assumption|intros b x I; apply (Rd b x); apply in_or_app; now right|assumption|].
    assert (exists rgs, Forall2 (read_group w) c rgs) as (rgs & Rg).
    { assert (forall b x, In (b, x) (stamped c) -> exists r, adaptReceipt w b = Ok r) as Rc by (intros b x I; apply (Rd b x); apply in_or_app; now left).
      clear -Rc. induction c as [|dg c IH]; [exists []; constructor|]. rewrite stamped_cons in Rc.
      destruct IH as (rgs & G); [intros b x I; apply (Rc b x); apply in_or_app; now right|].
      assert (exists rs, Forall2 (fun b r => adaptReceipt w b = Ok r) (g_recs dg) rs) as (rs & Fr).
      { assert (forall b, In b (g_recs dg) -> exists r, adaptReceipt w b = Ok r) as Rb
          by (intros b I; apply (Rc b (g_cert dg, g_chain dg)); apply in_or_app; left; apply in_map_iff; eauto).
        clear -Rb. induction (g_recs dg) as [|b l IH]; [exists []; constructor|]. destruct IH as (rs & F); [intros; apply Rb; now right|].
        destruct (Rb b (or_introl eq_refl)) as (r & A). exists (r :: rs). now constructor. }
      exists (RGroup rs (g_cert dg) (g_chain dg) :: rgs). constructor; [|exact G]. split; [exact Fr|]. auto. }
    destruct (export_doc w rgs [] P (read_parsed w c rgs Rg F1 L1) ltac:(constructor)) as (dep & gs' & E' & _).
    assert (receiptGroupAdapter w ([c], None) = (rgs, None)) as A.
    { apply adapter_spec. cbn [List.concat]. rewrite app_nil_r. auto. }
    exists (dep :: files). apply map_list_ok'. split; [|reflexivity]. constructor; [now rewrite A|]. now apply map_list_ok' in Ef.
Qed.

Lemma stamps_rewritten w l m n :
  Forall2 (fun (x : bytes * (option cert * list cert)) (y : rtuple * (option cert * list cert)) => adaptReceipt w (fst x) = Ok (fst y) /\ snd x = snd y) l m ->
  Forall2 (fun y (z : str * (option cert * list cert)) => toJWSString (fst (fst y)) (snd (fst y)) = Ok (fst z) /\ snd z = snd y) m n ->
  Forall2 (fun x (y : str * (option cert * list cert)) => exists r t, fromJWSString w (fst x) = Ok (r, t) /\ toJWSString r t = Ok (fst y) /\ snd x = snd y) l n.
Proof.
  intros F. revert n. induction F as [|x y l m (A & E) F IH]; intros n G; inversion G as [|? z ? n' (J & E') G']; subst; constructor; [|now apply IH].
  apply adapt_text in A. destruct y as [[r t] u]. exists r, t. split; [exact A|]. split; [exact J|]. transitivity u; [exact E|symmetry; exact E'].
Qed.

(** What the files contain *)
Theorem split_contents w kind doc n files gs : pem_ok w -> kind <> P_certless -> plain_names doc -> dep_doc w doc gs -> (1 <= n)%nat ->
  split_py w kind doc n = (files, None) ->
  exists gss, Forall2 (dep_doc w) files gss /\ Forall plain_names files
    /\ Forall2 (fun x y => exists r t, fromJWSString w (fst x) = Ok (r, t) /\ toJWSString r t = Ok (fst y) /\ snd x = snd y)
         (text_stamps gs) (flat_map text_stamps gss)
    /\ (forall l x, gss = l ++ [x] -> Forall (fun y => List.length (text_stamps y) = n) l /\ (0 < List.length (text_stamps x) <= n)%nat).
Proof.
  intros P K Pl D Hn E. destruct (split_files w kind doc n files P Pl K E) as (gs' & dgs & gss & D' & Enc & NF & _ & Le & Fg & St).
  rewrite (doc_stamps_fun w doc gs' gs D' D) in *. clear gs' D'. destruct (inc_delivers n dgs Hn) as (S & _ & Sz).
  exists gss.
  assert (Forall2 (dep_doc w) files gss /\ Forall plain_names files /\ Forall2 (fun c g => Forall2 (fun x y => exists r t, fromJWSString w (fst x) = Ok (r, t) /\ toJWSString r t = Ok (fst y) /\ snd x = snd y)
    (stamped c) (text_stamps g)) (inc_chunks n dgs) gss) as (F1 & F2 & F3).
  { revert Le Fg. generalize (inc_chunks n dgs). intros l. clear. revert files gss.
    induction l as [|ch l IH]; intros [|f fs] gss Le Fg; try discriminate; cbn [combine] in Fg; inversion Fg as [|? g ? r (Df & Pf & rgs & R & W) Fg']; subst; [split; [|split]; constructor|].
    destruct (IH fs r) as (I1 & I2 & I3); [cbn in Le; congruence|exact Fg'|]. split; [now constructor|]. split; [now constructor|]. constructor; [|exact I3].
    exact (stamps_rewritten w _ _ _ (read_stamps w _ _ R) (written_stamps w _ _ W)). }
  split; [exact F1|]. split; [exact F2|]. split.
  - rewrite <- St, <- S. clear -F3. induction F3; [constructor|]. cbn [flat_map]. now apply Forall2_app.
  - intros l x ->. apply Forall2_app_inv_r in F3 as (l1 & l2 & A & B & Ec). inversion B as [|c ? l2' ? Bc B']; subst. inversion B'; subst.
    assert (forall (l : list (bytes * (option cert * list cert))) (m : list (str * (option cert * list cert))) Q, Forall2 Q l m -> List.length m = List.length l) as Len
      by (intros l' m Q F; induction F; [reflexivity|cbn; congruence]).
    destruct (Sz l1 c Ec) as (Z1 & Z2). rewrite (Len _ _ _ Bc). split; [|exact Z2].
    clear -A Z1 Len. induction A as [|c y l1 l Ac A IH]; constructor; inversion Z1; subst; [|now apply IH]. apply (Len _ _ _ Ac).
Qed.

(** ** merge.py *)

Lemma chain_ok {A} (l : list (stream A)) out : s_chain l = (out, None) <-> Forall (fun s => snd s = None) l /\ out = List.concat (map fst l).
Proof.
  revert out. induction l as [|[x e] l IH]; intros out; cbn [s_chain fold_right map List.concat fst].
  - unfold s_end. split; [intros E; injection E as <-; split; [constructor|reflexivity]|]. now intros [_ ->].
  - change (fold_right s_app s_end l) with (s_chain l). unfold s_app. cbn [fst snd]. destruct e as [e|].
    + split; [discriminate|]. intros [F _]. inversion F. discriminate.
    + destruct (s_chain l) as [y f] eqn:Es. cbn [fst snd]. split.
      * intros E. injection E as <- ->. destruct (proj1 (IH y) eq_refl) as [F ->]. split; [constructor; [reflexivity|exact F]|reflexivity].
      * intros [F ->]. inversion F as [|? ? _ F']; subst. assert (X := proj2 (IH _) (conj F' eq_refl)). injection X as -> ->. reflexivity.
Qed.

Lemma doc_groups w doc n rgs gs : plain_names doc -> dep_doc w doc gs -> receiptGroupAdapter w (parse_inc w P_file doc n) = (rgs, None) ->
  Forall2 (fun x y => adaptReceipt w (fst x) = Ok (fst y) /\ snd x = snd y) (text_stamps gs) (stamps rgs)
  /\ Forall (parsed_group w) rgs /\ Forall (fun g => rg_recs g <> []) rgs /\ text_stamps gs <> [].
Proof.
  intros Pl D A. destruct (parse_inc w P_file doc n) as [chunks e] eqn:Ep. apply adapter_spec in A as [F ->].
  apply file_exact in Ep as (gs' & dgs & D' & Enc & NF & ->); [|exact Pl]. rewrite (doc_stamps_fun w doc gs' gs D' D) in *. clear gs' D'.
  destruct (inc_faithful n dgs) as (S & Fu & _ & _). assert (Fs := read_stamps w _ _ F).
  assert (stamped (List.concat (inc_chunks n dgs)) = stamped dgs) as Sc by (rewrite <- S; clear; induction (inc_chunks n dgs); [reflexivity|]; cbn [List.concat flat_map]; now rewrite stamped_app, IHl).
  rewrite Sc in Fs.
  assert (forall b x, In (b, x) (stamped dgs) -> exists r, adaptReceipt w b = Ok r) as Rd.
  { clear -Fs. intros b x I. induction Fs as [|[b' x'] y l m (A & E) F IH]; [destruct I|]. destruct I as [I|I]; [injection I as -> ->; eauto|now apply IH]. }
  assert (St := readable_stamps w gs dgs Enc Rd). rewrite St in *. split; [exact Fs|].
  assert (Fc : full (List.concat (inc_chunks n dgs))) by now apply Forall_concat. split; [|split].
  - apply (read_parsed w _ _ F Fc). rewrite Sc. apply (stamps_loaded w (load doc)). now apply load_doc.
  - clear -F Fc. induction F as [|dg g l m (R & _) F IH]; constructor; inversion Fc; subst; [|now apply IH]. intros E. rewrite E in R. inversion R. congruence.
  - rewrite <- St, <- stamped_filter. change (filter has_receipts dgs) with (filled dgs). intros H. pose proof (filled_full dgs) as Ff.
    destruct (filled dgs) as [|dg l]; [congruence|]. inversion Ff as [|? ? Ne _]; subst. rewrite stamped_cons in H. destruct (g_recs dg); [congruence|discriminate].
Qed.

Lemma merged_parsed w gs : Forall (parsed_group w) gs -> Forall (parsed_group w) (merged gs).
Proof.
  intros F. induction F as [|g gs [R C] F IH]; [constructor|]. cbn [merged]. destruct (merged gs) as [|h t]; [constructor; [split; assumption|constructor]|].
  destruct (cert_eqb (rg_cert g) (rg_cert h)); [|constructor; [split; assumption|exact IH]].
  inversion IH as [|? ? [R' C'] IH']; subst. constructor; [|exact IH']. split; cbn [rg_recs rg_cert rg_chain]; [apply Forall_app; auto|exact C].
Qed.

(** Certificates and chains after merging were there before. *)
Lemma merged_pairs (P : option cert * list cert -> Prop) {A} (gs : list (rgroup A)) : Forall (fun g => rg_recs g <> []) gs ->
  Forall P (map snd (stamps gs)) -> Forall P (map snd (stamps (merged gs))).
Proof.
  intros N H. assert (Forall (fun g => P (rg_cert g, rg_chain g)) gs) as G.
  { clear -N H. induction N as [|g gs N F IH]; [constructor|]. rewrite stamps_cons, map_app in H. apply Forall_app in H as [H1 H2]. constructor; [|now apply IH].
    destruct (rg_recs g); [congruence|]. now inversion H1. }
  assert (Forall (fun g => P (rg_cert g, rg_chain g)) (merged gs)) as G'.
  { clear -G. induction G as [|g gs Pg F IH]; [constructor|]. cbn [merged]. destruct (merged gs) as [|h t]; [now repeat constructor|].
    destruct (cert_eqb (rg_cert g) (rg_cert h)); constructor; try assumption. now inversion IH. }
  clear -G'. induction G' as [|g l Pg F IH]; [constructor|]. rewrite stamps_cons, map_app. apply Forall_app. split; [|exact IH].
  rewrite map_map. apply Forall_forall. intros x Hx. apply in_map_iff in Hx as (r & <- & _). exact Pg.
Qed.

Lemma agree_neighbours {A} (gs : list (rgroup A)) : Forall (fun g => rg_recs g <> []) gs -> chains_agree (map snd (stamps gs)) ->
  neighbours (fun x y => rg_cert x = rg_cert y -> rg_chain x = rg_chain y) gs.
Proof.
  intros N C l1 a b l2 -> E. apply Forall_app in N as [_ N]. inversion N as [|? ? Na N']; subst. inversion N' as [|? ? Nb _]; subst.
  destruct (exists_last Na) as (ra & x & Ea). destruct (rg_recs b) as [|y rb] eqn:Eb; [congruence|].
  apply (C (map snd (stamps l1) ++ map (fun _ => (rg_cert a, rg_chain a)) ra) (rg_cert a, rg_chain a) (rg_cert b, rg_chain b)
    (map (fun _ => (rg_cert b, rg_chain b)) rb ++ map snd (stamps l2))); [|exact E].
  rewrite stamps_app, !stamps_cons, Ea, Eb, !map_app, !map_map. cbn [map snd]. now rewrite <- !app_assoc.
Qed.

Lemma merged_certless {A} (gs : list (rgroup A)) : gs <> [] -> Forall (fun g => rg_cert g = None) gs ->
  exists recs ch, merged gs = [RGroup recs None ch].
Proof.
  intros N F. induction F as [|[r c ch] gs E F IH]; [congruence|]. cbn [rg_cert] in E. subst c. cbn [merged]. destruct gs as [|h t]; [cbn [merged]; eauto|].
  destruct IH as (recs & ch' & ->); [discriminate|]. cbn [rg_cert cert_eqb rg_chain rg_recs]. eauto.
Qed.

(** The groups of all files, and what merge.py writes *)
Lemma merge_groups w merge n docs dep gss : pem_ok w -> Forall plain_names docs -> Forall2 (dep_doc w) docs gss -> docs <> [] ->
  merge_py w merge n docs = Some (Ok dep) ->
  exists rgs gs, Forall2 (fun x y => adaptReceipt w (fst x) = Ok (fst y) /\ snd x = snd y) (text_stamps (List.concat gss)) (stamps rgs)
    /\ Forall (fun g => rg_recs g <> []) rgs /\ Forall (fun gs => text_stamps gs <> []) gss
    /\ dep_doc w dep gs /\ plain_names dep /\ Forall2 (written w) (if merge then merged rgs else rgs) gs.
Proof.
  intros P Pl D N M. unfold merge_py in M.
  destruct (fromIterList (map (fun doc => receiptGroupAdapter w (parse_inc w P_file doc n)) docs)) as [rgs e] eqn:Ec.
  assert (Some (export w (if merge then merged rgs else rgs, e) []) = Some (Ok dep)) as M' by (destruct merge; [rewrite read_merged in M|]; exact M).
  clear M. rename M' into M.
  apply Some_inj in M. destruct e as [e|]; [unfold export in M; cbn [fst snd] in M; destruct (mapM (exportGroup w) _); discriminate|].
  apply chain_ok in Ec as [Fn ->]. rewrite Forall_map in Fn. rewrite map_map in *. exists (List.concat (map (fun doc => fst (receiptGroupAdapter w (parse_inc w P_file doc n))) docs)).
  assert (Forall2 (fun x y => adaptReceipt w (fst x) = Ok (fst y) /\ snd x = snd y) (text_stamps (List.concat gss)) (stamps (List.concat (map (fun doc => fst (receiptGroupAdapter w (parse_inc w P_file doc n))) docs)))
    /\ Forall (parsed_group w) (List.concat (map (fun doc => fst (receiptGroupAdapter w (parse_inc w P_file doc n))) docs))
    /\ Forall (fun g => rg_recs g <> []) (List.concat (map (fun doc => fst (receiptGroupAdapter w (parse_inc w P_file doc n))) docs)) /\ Forall (fun gs => text_stamps gs <> []) gss) as (F1 & F2 & F3 & F4).
  { clear M N. revert Pl Fn. induction D as [|doc gs docs gss Dg D IH]; intros Pl Fn; [repeat split; constructor|]. inversion Pl; inversion Fn; subst.
    destruct (IH ltac:(assumption) ltac:(assumption)) as (I1 & I2 & I3 & I4). cbn [map List.concat].
    destruct (receiptGroupAdapter w (parse_inc w P_file doc n)) as [rgs e] eqn:A. cbn [fst snd] in *. subst e.
    destruct (doc_groups w doc n rgs gs ltac:(assumption) Dg A) as (J1 & J2 & J3 & J4).
    rewrite text_stamps_app, stamps_app. split; [now apply Forall2_app|]. split; [now apply Forall_app|]. split; [now apply Forall_app|now constructor]. }
  destruct (export_doc w (if merge then merged _ else _) [] P ltac:(destruct merge; [apply merged_parsed; exact F2|exact F2]) ltac:(constructor)) as (dep' & gs & E' & Dd & W & Pd & _).
  rewrite M in E'. apply Ok_inj in E'. subst dep'. exists gs. auto 10.
Qed.

Lemma certless_stamps gs : certless gs -> Forall (fun x => fst x = None) (map snd (text_stamps gs)).
Proof. intros (g & E & N). apply occupied_stamp. rewrite E. constructor; [exact N|constructor]. Qed.

Theorem merge_verify w merge n docs dep gss ks key c idx before reg after c' : hash_ok w -> pem_ok w -> docs <> [] ->
  Forall plain_names docs -> Forall2 (dep_doc w) docs gss -> Forall canonical_texts gss ->
  Forall (fun gs => all_certs (occupied gs)) gss \/ merge = true /\ Forall certless gss ->
  merge_py w merge n docs = Some (Ok dep) -> selects c idx before reg after ->
  (accepted_in_turn w ks key (same_register before) (map load docs) c idx c' -> verifyDEP w (load dep) ks key c idx = (c', None))
  /\ (merge = false \/ chains_agree (map snd (text_stamps (List.concat gss))) \/ Forall certless gss ->
      verifyDEP w (load dep) ks key c idx = (c', None) -> accepted_in_turn w ks key (same_register before) (map load docs) c idx c').
Proof.
  intros HO P N Pl D Ca Ce M Sl. destruct (merge_groups w merge n docs dep gss P Pl D N M) as (rgs & gs & F1 & F3 & F4 & Dd & Pd & W).
  set (out := if merge then merged rgs else rgs) in *.
  assert (cs (stamps out) = cs (stamps rgs)) as Eo by (unfold out; destruct merge; [|reflexivity]; rewrite !cs_stamps; apply merged_certs).
  assert (Forall (fun x => canonical_text (fst x)) (text_stamps (List.concat gss))) as Cs.
  { apply Forall_forall. intros [t [x y]] I. apply in_text_stamps in I as (g & G & T & _). apply in_concat in G as (l & L & G).
    rewrite Forall_forall in Ca. specialize (Ca l L). unfold canonical_texts in Ca. rewrite Forall_forall in Ca. specialize (Ca g G). rewrite Forall_forall in Ca. now apply Ca. }
  assert (cs (text_stamps gs) = cs (text_stamps (List.concat gss))) as Eq by exact (texts_back_certs w _ _ _ _ Cs F1 Eo (written_stamps w _ _ W)).
  assert (map snd (text_stamps gs) = map snd (stamps out)) as S1.
  { assert (X := written_stamps w _ _ W). clear -X. induction X as [|y z l m [_ E] X IH]; [reflexivity|]. cbn [map]. now rewrite IH, E. }
  assert (map snd (stamps rgs) = map snd (text_stamps (List.concat gss))) as S2.
  { clear -F1. revert F1. generalize (text_stamps (List.concat gss)). intros l F. induction F as [|y z l m [_ E] X IH]; [reflexivity|]. cbn [map]. rewrite IH. f_equal. symmetry. exact E. }
  assert (text_stamps (List.concat gss) <> []) as Ng.
  { inversion D as [|? g ? ? _ D']; subst; [congruence|]. inversion F4 as [|? ? H]; subst. cbn [List.concat]. rewrite text_stamps_app.
    destruct (text_stamps g); [congruence|discriminate]. }
  assert (text_stamps gs <> []) as Ns.
  { intros E. rewrite E in Eq. symmetry in Eq. apply map_eq_nil in Eq. contradiction. }
  assert (Forall2 (dep_is w) [load dep] [gs]) as D1 by (constructor; [now apply load_doc|constructor]).
  assert (Forall2 (dep_is w) (map load docs) gss) as D2 by (clear -D; induction D; constructor; [now apply load_doc|assumption]).
  assert (map load docs <> []) as Nd by (destruct docs; [congruence|discriminate]).
  assert (Forall certless gss -> certless gs) as Cl.
  { intros C. assert (Forall (fun x => fst x = None) (map snd (stamps rgs))) as Cn.
    { rewrite S2. clear -C. induction C; [constructor|]. cbn [List.concat]. rewrite text_stamps_app, map_app. apply Forall_app. split; [now apply certless_stamps|assumption]. }
    destruct merge; cycle 1.
    - destruct Ce as [A|[A _]]; [|discriminate]. exfalso. inversion C as [|g l (g1 & E1 & N1) C']; subst; [now inversion D; subst|].
      inversion A as [|? ? A1 _]; subst. rewrite E1 in A1. unfold all_certs in A1. inversion A1. congruence.
    - assert (Forall (fun g => rg_cert g = None) rgs) as Cr.
      { clear -Cn F3. induction F3 as [|g l Ne F IH]; [constructor|]. rewrite stamps_cons, map_app in Cn. apply Forall_app in Cn as [C1 C2]. constructor; [|now apply IH].
        destruct (rg_recs g); [congruence|]. now inversion C1. }
      destruct (merged_certless rgs) as (recs & ch & Em); [intros ->; apply Ng; now inversion F1|exact Cr|].
      unfold out in W. rewrite Em in W. inversion W as [|? g ? ? (_ & Wc & _) W']; subst. inversion W'; subst. exists g. split; [|exact Wc].
      unfold occupied. cbn [filter]. destruct (gr_texts g) eqn:Et; [|reflexivity]. exfalso. apply Ns. unfold text_stamps. cbn [flat_map]. now rewrite Et. }
  assert (Forall (fun gs => all_certs (occupied gs)) gss -> Forall (fun x => fst x <> None) (map snd (text_stamps (List.concat gss)))) as Al.
  { intros A. clear -A. induction A as [|g l A F IH]; [constructor|]. cbn [List.concat]. rewrite text_stamps_app, map_app. apply Forall_app. split; [|exact IH].
    apply occupied_stamp. exact A. }
  assert (Forall (fun gs => all_certs (occupied gs)) gss -> Forall (fun x => fst x <> None) (map snd (text_stamps gs))) as Al'.
  { intros A. specialize (Al A). rewrite <- S2 in Al. rewrite S1. unfold out. destruct merge; [now apply merged_pairs|exact Al]. }
  rewrite <- (in_turn_one w ks key (same_register before) (load dep)). split.
  - apply (same_receipts w ks key (map load docs) [load dep] gss [gs] c idx before reg after c' HO Sl); try assumption; [discriminate|constructor; [exact Ns|constructor]| |].
    + cbn [List.concat]. rewrite app_nil_r. symmetry. exact Eq.
    + intros T. constructor; [|constructor]. destruct Ce as [A|[_ A]]; [|now apply certless_trust, Cl].
      apply (trust_all w ks gs (Al' A)). rewrite S1. apply (trust_all_parts w ks gss (Al A)) in T. rewrite <- S2 in T. unfold out. destruct merge; [now apply merged_pairs|exact T].
  - intros Ch. apply (same_receipts w ks key [load dep] (map load docs) [gs] gss c idx before reg after c' HO Sl); try assumption; [discriminate|constructor; [exact Ns|constructor]| |].
    + cbn [List.concat]. rewrite app_nil_r. exact Eq.
    + intros T. inversion T as [|? ? T1 _]; subst.
      assert (Forall certless gss \/ Forall (fun gs => all_certs (occupied gs)) gss /\ map snd (stamps out) = map snd (stamps rgs)) as [A|[A So]].
      { destruct Ce as [A|[_ A]]; [|now left]. destruct Ch as [->|[Ch|Ch]]; [now right| |now left]. right. split; [exact A|]. unfold out. destruct merge; [|reflexivity].
        f_equal. apply merged_stamps. apply agree_neighbours; [exact F3|]. now rewrite S2. }
      * clear -A. induction A; constructor; [now apply certless_trust|assumption].
      * apply (trust_all_parts w ks gss (Al A)). rewrite <- S2, <- So, <- S1. now apply (trust_all w ks gs (Al' A)).
Qed.

(** merge.py writes a DEP if the receipts can be read. *)
Theorem merge_exists w merge n docs gss : pem_ok w -> Forall plain_names docs -> Forall2 (dep_doc w) docs gss ->
  Forall (fun gs => text_stamps gs <> []) gss -> Forall (texts_read w) gss ->
  exists dep, merge_py w merge n docs = Some (Ok dep).
Proof.
  intros P Pl D N T. unfold merge_py.
  assert (exists rgs, fromIterList (map (fun doc => receiptGroupAdapter w (parse_inc w P_file doc n)) docs) = (rgs, None) /\ Forall (parsed_group w) rgs) as (rgs & Er & Fp).
  { revert Pl N T. induction D as [|doc gs docs gss Dg D IH]; intros Pl N T; [exists []; split; [reflexivity|constructor]|].
    inversion Pl; inversion N; inversion T; subst. destruct IH as (rgs & Er & Fp); [assumption..|].
    destruct (texts_encoded w gs ltac:(assumption)) as (dgs & E & R).
    assert (Rd : Forall2 (fun dg g => read_group w dg g) dgs (map (fun dg => RGroup (flat_map (fun b => match adaptReceipt w b with Ok r => [r] | Err _ => [] end) (g_recs dg)) (g_cert dg) (g_chain dg)) dgs)).
    { clear -R. induction R as [|dg l R F IH]; [constructor|]. cbn [map]. constructor; [|exact IH]. split; [|auto]. cbn [rg_recs].
      induction R as [|b bs (r & A) R IH']; [constructor|]. cbn [flat_map]. rewrite A. cbn [app]. now constructor. }
    destruct (chunks_read w _ dgs (inc_chunks n dgs) Rd (proj1 (inc_faithful n dgs))) as (rg & A & _).
    assert (receiptGroupAdapter w (parse_inc w P_file doc n) = (rg, None)) as Ad by now rewrite (file_chunks w doc n gs dgs Dg ltac:(assumption) E (occupied_filled _ _ E ltac:(assumption))).
    exists (rg ++ rgs). cbn [map]. unfold fromIterList, s_chain in *. cbn [fold_right]. rewrite Er, Ad. split; [reflexivity|].
    apply Forall_app. split; [|exact Fp]. now destruct (doc_groups w doc n rg gs ltac:(assumption) Dg Ad) as (_ & X & _). }
  rewrite Er. destruct merge; [rewrite read_merged; cbn [fst snd]|].
  - destruct (export_doc w (merged rgs) [] P (merged_parsed w rgs Fp) ltac:(constructor)) as (dep & gs & E & _). exists dep. f_equal. exact E.
  - destruct (export_doc w rgs [] P Fp ltac:(constructor)) as (dep & gs & E & _). exists dep. f_equal. exact E.
Qed.
