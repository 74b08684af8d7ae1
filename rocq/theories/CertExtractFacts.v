(** Facts about cert_extract.py. *)
From Coq Require Import Lia ZifyClasses ZifyN ZifyNat ZifyBool.
From Verif Require Import PyBase ListFacts World Codec Json Pem PemFacts KeyStore KeyFacts DepBase DepParser DepExport
  KeyStoreCli SpecKeys SpecStore SpecCluster SpecChunks SpecDoc SpecKeyStoreCli DictFacts AcceptFacts ParTheorems IncFacts IncDoc IncBack IncTheorems ExportFacts IntFacts KeyStoreCliFacts.
Open Scope N_scope.
Open Scope py_scope.

(** Cases of a step that succeeds *)
Ltac step_cases H :=
  unfold d_parse in H;
  repeat first
    [ discriminate
    | match type of H with bind (bind ?m _) _ = _ => destruct m eqn:?; cbn [bind] in H end
    | match type of H with bind (if ?b then _ else _) _ = _ => destruct b eqn:?; cbn [bind] in H end
    | match type of H with bind ?m _ = _ => destruct m eqn:?; cbn [bind] in H end
    | match type of H with (match ?b with _ => _ end) = _ => destruct b eqn:? end ];
  apply Ok_inj in H.

(** ** Few receipts: nothing is delivered before the end *)

Definition total (d : dstate) : nat := (currentChunksize d + List.length (d_recs d))%nat.
Definition settled (d : dstate) : Prop := incomplete (d_mode d) = false -> d_recs d = [].

Lemma merge_total d : total (mergeIntoChunk d) = total d /\ d_recs (mergeIntoChunk d) = [].
Proof.
  unfold mergeIntoChunk, total, currentChunksize. destruct (d_recs d) eqn:E; [now rewrite E|]. cbn [d_chunk d_recs List.length].
  rewrite map_app, list_sum_app. cbn [map g_recs list_sum fold_right List.length]. split; [lia|reflexivity].
Qed.

Lemma step_total w d p e d' : settled d -> d_parse w d p e = Ok d' -> settled d' /\ (total d <= total d')%nat.
Proof.
  intros S H. step_cases H; subst d';
    unfold settled, total, currentChunksize in *; cbn [set_mode d_mode d_recs d_chunk incomplete] in *;
    repeat match goal with E : d_mode d = _ |- _ => rewrite E in * end; cbn [incomplete] in *;
    try (rewrite (S eq_refl)); try (split; [reflexivity || discriminate || (intros _; now apply S)|cbn [List.length]; lia]).
  - destruct (merge_total d) as [T R]. unfold total, currentChunksize in T. split; [intros _; exact R|lia].
  - split; [discriminate|]. rewrite app_length. lia.
  - split; [discriminate|]. rewrite app_length. lia.
Qed.

Lemma getChunk_size m d : (incomplete m = false -> d_recs d = []) -> size (fst (getChunk m d)) = total d.
Proof.
  intros S. assert (forall d, size (d_chunk d) = currentChunksize d) as Sz.
  { intros x. unfold size, stamped, currentChunksize. induction (d_chunk x) as [|g l IH]; [reflexivity|]. cbn [flat_map map list_sum fold_right].
    rewrite app_length, map_length, IH. reflexivity. }
  unfold getChunk. destruct (incomplete m).
  - destruct (merge_total d) as [T R]. unfold total in T at 1. rewrite R in T. cbn [List.length] in T. rewrite Nat.add_0_r in T.
    destruct (Nat.leb_spec (currentChunksize (mergeIntoChunk d)) 0) as [L|L]; cbn [fst]; [cbn; lia|]. rewrite Sz. exact T.
  - unfold total. rewrite (S eq_refl), Nat.add_0_r. destruct (Nat.leb_spec (currentChunksize d) 0) as [L|L]; cbn [fst]; [cbn; lia|]. apply Sz.
Qed.

Lemma large_loop w kind doc n evs : forall d got cs, settled d -> inc_loop w kind doc 0 evs d got = (cs, None) ->
  (total d <= size (List.concat cs))%nat /\ ((size (List.concat cs) < n)%nat -> inc_loop w kind doc n evs d got = (cs, None)).
Proof.
  induction evs as [|[p e] evs IH]; intros d got cs S H; cbn [inc_loop] in *.
  - split; [|intros _; exact H]. rewrite <- (getChunk_size (d_mode d) d S). destruct (fst (getChunk (d_mode d) d)) as [|g l] eqn:G.
    + cbn. lia.
    + injection H as <-. cbn [List.concat]. now rewrite app_nil_r.
  - destruct (d_parse w d p e) as [d'|x] eqn:P; [|discriminate]. destruct (step_total _ _ _ _ _ S P) as [S' T].
    cbv zeta in *. unfold d_ready at 1 in H. cbn [Nat.eqb] in H. destruct (IH _ _ _ S' H) as [T' L]. split; [lia|]. intros Hn.
    assert (d_ready (d_mode d) n d' = false) as ->; [|now apply L]. unfold d_ready. destruct (n =? 0)%nat; [reflexivity|].
    apply Nat.leb_gt. unfold total in T'. destruct (incomplete (d_mode d)); lia.
Qed.

Lemma large_chunks w kind doc n cs : parse_inc w kind doc 0 = (cs, None) -> (size (List.concat cs) < n)%nat -> parse_inc w kind doc n = (cs, None).
Proof. intros H L. apply (large_loop w kind doc n (events [] doc) d_init false cs); [intros _; reflexivity|exact H|exact L]. Qed.

(** ** Everything in the files comes from the DEP *)

Definition certs_in (Q : cert -> Prop) (d : dstate) : Prop :=
  (forall c, d_cert d = Some c -> Q c) /\ (forall l, d_chain d = Some l -> Forall Q l)
  /\ Forall (fun g => Forall Q (group_certs g)) (d_chunk d).

Lemma merge_certs Q d : certs_in Q d -> certs_in Q (mergeIntoChunk d).
Proof.
  intros (A & B & C). unfold mergeIntoChunk. destruct (d_recs d); [now split|]. split; [exact A|]. split; [exact B|].
  cbn [d_chunk]. apply Forall_app. split; [exact C|]. constructor; [|constructor]. unfold group_certs. cbn [g_chain g_cert]. apply Forall_app. split.
  - destruct (d_chain d) as [ch|]; [now apply B|constructor].
  - destruct (d_cert d) as [c|]; [constructor; [now apply A|constructor]|constructor].
Qed.

Lemma get_certs Q m d : certs_in Q d -> Forall (fun g => Forall Q (group_certs g)) (fst (getChunk m d)) /\ certs_in Q (snd (getChunk m d)).
Proof.
  intros C. unfold getChunk. assert (certs_in Q (if incomplete m then mergeIntoChunk d else d)) as C' by (destruct (incomplete m); [now apply merge_certs|exact C]).
  destruct (if incomplete m then mergeIntoChunk d else d) as [md rs gs ci rec cs ls ch ce cn re]. cbn [currentChunksize d_chunk] in *.
  destruct (_ <=? 0)%nat; cbn [fst snd]; [split; [constructor|exact C']|].
  destruct C' as (A & B & D). cbn [d_cert d_chain d_chunk] in *. split; [exact D|]. split; [exact A|]. split; [exact B|constructor].
Qed.

Lemma step_certs w Q d p e d' : certs_in Q d -> (forall s c, e = E_string s -> parseDEPCert w s = Ok c -> Q c) ->
  d_parse w d p e = Ok d' -> certs_in Q d'.
Proof.
  intros (A & B & C) E H. step_cases H; subst d'; try exact (merge_certs Q d (conj A (conj B C))); unfold certs_in; cbn [set_mode d_cert d_chain d_chunk];
    repeat match goal with X : Ok _ = Ok ?b |- _ => apply Ok_inj in X; subst b end;
    (split; [try exact A; try discriminate|split; [try exact B; try discriminate|exact C]]).
  all: intros x X; apply Some_inj in X; subst x.
  all: first [ constructor
             | eapply E; [reflexivity|eassumption]
             | apply Forall_app; split;
               [ destruct (d_chain d) as [l|]; [now apply B|constructor]
               | constructor; [eapply E; [reflexivity|eassumption]|constructor] ] ].
Qed.

Lemma need_certs w Q doc i d d' : certs_in Q d -> needCerts w P_certless doc i d = Ok d' -> certs_in Q d'.
Proof. intros C H. cbn [needCerts] in H. apply Ok_inj in H. now subst. Qed.

Lemma loop_certs w (Q : cert -> Prop) doc n evs : forall d got,
  (forall p s c, In (p, E_string s) evs -> parseDEPCert w s = Ok c -> Q c) -> certs_in Q d ->
  Forall (fun g => Forall Q (group_certs g)) (List.concat (fst (inc_loop w P_certless doc n evs d got))).
Proof.
  induction evs as [|[p e] evs IH]; intros d got E C; cbn [inc_loop].
  - destruct (get_certs Q (d_mode d) d C) as [G _]. destruct (fst (getChunk (d_mode d) d)) as [|g l].
    + destruct got; constructor.
    + cbn [s_cons s_end fst List.concat]. now rewrite app_nil_r.
  - destruct (d_parse w d p e) as [d'|x] eqn:P; [|constructor]. cbv zeta.
    assert (certs_in Q d') as C'.
    { apply (step_certs w Q d p e d' C); [|exact P]. intros s c -> H. apply (E p s c); [now left|exact H]. }
    assert (forall p s c, In (p, E_string s) evs -> parseDEPCert w s = Ok c -> Q c) as E'.
    { intros p0 s c I. apply (E p0 s c). now right. }
    destruct (d_ready (d_mode d) n d'); [|now apply IH].
    destruct (match needCrt (d_mode d) d' with None => Ok d' | Some i => needCerts w P_certless doc i d' end) as [d2|x] eqn:N; [|constructor].
    assert (certs_in Q d2) as C2.
    { destruct (needCrt (d_mode d) d') as [i|]; [exact (need_certs _ _ _ _ _ _ C' N)|]. apply Ok_inj in N. now subst. }
    destruct (get_certs Q (d_mode d) d2 C2) as [G1 G2]. cbn [s_cons fst List.concat]. apply Forall_app. split; [exact G1|].
    now apply IH.
Qed.

(** ** The directory *)

Lemma files_get w l : forall dir name,
  content_of (fold_left (cert_file w) l dir) name = content_of dir name /\ (forall c, In c l -> crt_name w c <> name)
  \/ exists c, In c l /\ crt_name w c = name
     /\ content_of (fold_left (cert_file w) l dir) name = Some (addPEMCertHeaders (exportCertToPEM w c)).
Proof.
  induction l as [|c l IH]; intros dir name; cbn [fold_left]; [left; split; [reflexivity|intros c []]|].
  destruct (IH (cert_file w dir c) name) as [[G N]|(c' & I & E & G)].
  - rewrite G. unfold content_of, cert_file. rewrite get_set. change (numSerialToKeyId (w_serial w c) ++ lit ".crt") with (crt_name w c).
    destruct (str_eqb (crt_name w c) name) eqn:E.
    + apply str_eqb_eq in E. right. exists c. split; [now left|]. now split.
    + left. split; [reflexivity|]. intros c' [<-|I]; [|now apply N]. intros X. rewrite X, str_eqb_refl in E. discriminate.
  - right. exists c'. split; [now right|]. now split.
Qed.

Lemma cert_reads w s c : pem_ok w -> parseDEPCert w s = Ok c -> loadCert w (addPEMCertHeaders (exportCertToPEM w c)) = Ok c.
Proof.
  intros P H. assert (exists t, loadCert w t = Ok c) as (t & L).
  { unfold parseDEPCert in H. exists (addPEMCertHeaders s). destruct (loadCert w (addPEMCertHeaders s)) as [x|x]; [exact H|].
    cbn [catch] in H. destruct (value_error x); discriminate. }
  destruct (export_cert w c t P L) as [R _]. unfold cert_text, parseDEPCert in R.
  destruct (loadCert w (addPEMCertHeaders (exportCertToPEM w c))) as [x|x]; [exact R|]. cbn [catch] in R. destruct (value_error x); discriminate.
Qed.

(** Whatever the document is, and whether or not reading it succeeds: a file that
    changes contains a certificate of the document. *)
Theorem extract_sound w n doc dir name : pem_ok w ->
  content_of (fst (cert_extract w n doc dir)) name = content_of dir name
  \/ exists s c t, text_in doc s /\ parseDEPCert w s = Ok c /\ name = crt_name w c
     /\ content_of (fst (cert_extract w n doc dir)) name = Some t /\ loadCert w t = Ok c.
Proof.
  intros P. unfold cert_extract. cbv zeta. cbn [fst].
  destruct (files_get w (flat_map group_certs (List.concat (fst (parse_inc w P_certless doc n)))) dir name) as [[G _]|(c & I & E & G)]; [now left|].
  right. assert (exists s, text_in doc s /\ parseDEPCert w s = Ok c) as (s & T & R).
  { apply in_flat_map in I as (g & Ig & Ic).
    assert (F := loop_certs w (fun c => exists s, text_in doc s /\ parseDEPCert w s = Ok c) doc n (events [] doc) d_init false).
    rewrite Forall_forall in F. assert (F' := fun A B => F A B g Ig). clear F. cbn beta in F'. rewrite Forall_forall in F'. apply F'; [| |exact Ic].
    - intros p s c' X Y. exists s. split; [exact (texts_of_events _ _ _ _ X)|exact Y].
    - split; [discriminate|]. split; [discriminate|constructor]. }
  exists s, c, (addPEMCertHeaders (exportCertToPEM w c)). split; [exact T|]. split; [exact R|]. split; [now symmetry|]. split; [exact G|].
  exact (cert_reads w s c P R).
Qed.

(** ** Nothing is missing *)

Lemma stamped_certs dgs c : Forall (fun g => g_recs g <> []) dgs ->
  (In c (flat_map group_certs dgs) <-> exists b ce ch, In (b, (ce, ch)) (stamped dgs) /\ (In c ch \/ ce = Some c)).
Proof.
  intros F. rewrite Forall_forall in F. split.
  - intros H. apply in_flat_map in H as (g & I & H). destruct (g_recs g) as [|b bs] eqn:E; [now apply F in E|].
    exists b, (g_cert g), (g_chain g). split.
    + apply in_flat_map. exists g. split; [exact I|]. apply in_map_iff. exists b. split; [reflexivity|]. rewrite E. now left.
    + unfold group_certs in H. apply in_app_or in H as [H|H]; [now left|]. right. destruct (g_cert g); [|destruct H].
      destruct H as [->|[]]. reflexivity.
  - intros (b & ce & ch & I & H). apply in_flat_map in I as (g & I & X). apply in_map_iff in X as (b' & X & _). injection X as <- <- <-.
    apply in_flat_map. exists g. split; [exact I|]. unfold group_certs. apply in_or_app. destruct H as [H|H]; [now left|]. right. rewrite H. now left.
Qed.

Lemma dep_certs gs dgs c : Forall2 encoded gs dgs ->
  (dep_cert gs c <-> exists b ce ch, In (b, (ce, ch)) (stamped dgs) /\ (In c ch \/ ce = Some c)).
Proof.
  intros E. unfold dep_cert. split.
  - intros (g & I & N & H). induction E as [|g' dg gs dgs (F & Ec & Eh) _ IH]; [destruct I|]. destruct I as [->|I].
    + inversion F as [X|t b ts bs Hb Fb Et Eb]; [now rewrite <- X in N|].
      exists b, (g_cert dg), (g_chain dg). rewrite Ec, Eh. split; [|exact H]. cbn [stamped flat_map]. apply in_or_app. left.
      apply in_map_iff. exists b. split; [now rewrite Ec, Eh|]. rewrite <- Eb. now left.
    + destruct (IH I) as (b & ce & ch & Ib & Hb). exists b, ce, ch. split; [|exact Hb]. cbn [stamped flat_map]. apply in_or_app. now right.
  - intros (b & ce & ch & I & H). induction E as [|g dg gs dgs (F & Ec & Eh) _ IH]; [destruct I|]. cbn [stamped flat_map] in I.
    apply in_app_or in I as [I|I].
    + apply in_map_iff in I as (b' & X & I). injection X as -> <- <-. exists g. split; [now left|]. split.
      * intros X. rewrite X in F. destruct (g_recs dg); [destruct I|inversion F].
      * now rewrite <- Ec, <- Eh.
    + destruct (IH I) as (g' & Ig & Hg). exists g'. split; [now right|exact Hg].
Qed.


Lemma certless_chunks w n doc gs dgs : dep_doc w doc gs -> plain_names doc -> Forall2 encoded gs dgs -> filled dgs <> [] ->
  certs_first doc \/ n = 0%nat \/ (size dgs < n)%nat ->
  exists cs, parse_inc w P_certless doc n = (cs, None) /\ faithful dgs cs.
Proof.
  intros D Pl E NE H.
  assert (parse_inc w P_certless doc 0 = (inc_chunks 0 dgs, None)) as Z.
  { apply (stream_loop w doc 0). change (parse_inc w P_stream doc 0 = (inc_chunks 0 dgs, None)).
    rewrite (proj2 (unlimited w doc gs dgs D Pl E NE)). cbn [inc_chunks]. change (filter has_receipts dgs) with (filled dgs).
    destruct (filled dgs); [now destruct NE|reflexivity]. }
  destruct H as [C|[->|L]].
  - exists (inc_chunks n dgs). split; [|apply inc_faithful]. apply (stream_loop w doc n). exact (stream_chunks w doc n gs dgs D Pl C E NE).
  - exists (inc_chunks 0 dgs). split; [exact Z|apply inc_faithful].
  - exists (inc_chunks 0 dgs). split; [|apply inc_faithful]. apply large_chunks; [exact Z|].
    destruct (inc_faithful 0 dgs) as [F _]. assert (stamped (List.concat (inc_chunks 0 dgs)) = stamped dgs) as X.
    { rewrite <- F. generalize (inc_chunks 0 dgs). intros l. unfold stamped. induction l as [|x l IH]; [reflexivity|]. cbn [List.concat flat_map].
      now rewrite flat_map_app, IH. }
    unfold size in *. now rewrite X.
Qed.

Lemma dep_cert_text w doc gs c : dep_doc w doc gs -> dep_cert gs c -> exists s, parseDEPCert w s = Ok c.
Proof.
  intros (d & js & _ & _ & F) (g & I & _ & H). induction F as [|j g' js gs G _ IH]; [destruct I|]. destruct I as [->|I]; [|now apply IH].
  destruct G as (d' & sc & chain & _ & _ & _ & O & _ & Ch). destruct H as [H|H].
  - induction Ch as [|s c' ss cs Hc _ IH']; [destruct H|]. destruct H as [->|H]; [now exists s|now apply IH'].
  - destruct O as [[_ O]|(_ & c' & T & O)]; rewrite O in H; [discriminate|]. apply Some_inj in H. subst. now exists sc.
Qed.

Theorem extract_complete w n doc gs dgs dir : pem_ok w -> dep_doc w doc gs -> plain_names doc -> Forall2 encoded gs dgs -> filled dgs <> [] ->
  certs_first doc \/ n = 0%nat \/ (size dgs < n)%nat ->
  exists dir', cert_extract w n doc dir = (dir', None)
    /\ (forall c, dep_cert gs c -> exists c' t, dep_cert gs c' /\ crt_name w c' = crt_name w c
          /\ content_of dir' (crt_name w c) = Some t /\ loadCert w t = Ok c')
    /\ (forall c, dep_cert gs c -> (forall c', dep_cert gs c' -> Z.abs (w_serial w c') = Z.abs (w_serial w c) -> c' = c) ->
          exists t, content_of dir' (crt_name w c) = Some t /\ loadCert w t = Ok c)
    /\ (forall name, (forall c, dep_cert gs c -> crt_name w c <> name) -> content_of dir' name = content_of dir name).
Proof.
  intros P D Pl E NE H. destruct (certless_chunks w n doc gs dgs D Pl E NE H) as (cs & R & Fa).
  assert (forall c, In c (flat_map group_certs (List.concat cs)) <-> dep_cert gs c) as X.
  { intros c. rewrite (dep_certs gs dgs c E), stamped_certs.
    - destruct Fa as [Fa _]. rewrite <- Fa. replace (stamped (List.concat cs)) with (flat_map stamped cs); [reflexivity|].
      clear. unfold stamped. induction cs as [|x l IH]; [reflexivity|]. cbn [List.concat flat_map]. now rewrite flat_map_app, IH.
    - destruct Fa as (_ & Fa & _). clear -Fa. induction Fa as [|x l Hx _ IH]; [constructor|]. cbn [List.concat]. apply Forall_app. now split. }
  exists (fold_left (cert_file w) (flat_map group_certs (List.concat cs)) dir). split; [unfold cert_extract; now rewrite R|].
  assert (forall c, dep_cert gs c -> exists c' t, dep_cert gs c' /\ crt_name w c' = crt_name w c
          /\ content_of (fold_left (cert_file w) (flat_map group_certs (List.concat cs)) dir) (crt_name w c) = Some t /\ loadCert w t = Ok c') as A.
  { intros c Hc. destruct (files_get w (flat_map group_certs (List.concat cs)) dir (crt_name w c)) as [[_ N]|(c' & I & Ec & G)].
    - exfalso. apply (N c); [now apply X|reflexivity].
    - apply X in I. exists c', (addPEMCertHeaders (exportCertToPEM w c')). split; [exact I|]. split; [exact Ec|]. split; [exact G|].
      destruct (dep_cert_text w doc gs c' D I) as (s & T). exact (cert_reads w s c' P T). }
  split; [exact A|]. split.
  - intros c Hc U. destruct (A c Hc) as (c' & t & Hc' & Ec & G & L). exists t. split; [exact G|]. rewrite <- (U c' Hc'); [exact L|].
    unfold crt_name, numSerialToKeyId in Ec. apply app_inv_tail in Ec. now apply fmt_x_inj in Ec.
  - intros name N. destruct (files_get w (flat_map group_certs (List.concat cs)) dir name) as [[G _]|(c & I & Ec & _)]; [exact G|].
    exfalso. apply (N c); [now apply X|exact Ec].
Qed.
