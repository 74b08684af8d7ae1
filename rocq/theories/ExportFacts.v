(** Exporting groups and reading them again. *)
From Coq Require Import Lia.
From Verif Require Import PyBase World Codec Receipt DepBase Json Pem KeyStore State DepParser Verify DepExport ListFacts CodecFacts SpecReceipt ReceiptFacts
  RoundTrip RoundTrip2 VerifyFacts SpecDep SpecCluster AcceptFacts SpecChunks ChunkFacts DictFacts ParTheorems SpecDoc IncDoc IncBack IncTheorems SpecKeys PemFacts KeyFacts
  SpecMerge MergeFacts SpecExport.
Open Scope N_scope.

(** ** Exporting *)

Lemma export_cert w c t : pem_ok w -> loadCert w t = Ok c ->
  cert_text w (exportCertToPEM w c) c /\ exportCertToPEM w c <> [].
Proof.
  intros P L. unfold loadCert in L. destruct (utf8_encode t) as [b|]; [|discriminate]. cbn [bind] in L.
  destruct (w_load_cert w b) as [c'|] eqn:Lb; [|discriminate]. apply Ok_inj in L. subst c'.
  assert (R := reload_cert w c b P Lb). split.
  - unfold cert_text, parseDEPCert. unfold parseKeyStoreCert in R. destruct (loadCert w (addPEMCertHeaders (exportCertToPEM w c))) as [x|e] eqn:E.
    + cbn [catch] in *. exact R.
    + cbn [catch] in R. destruct (value_error e); discriminate.
  - destruct (proj1 P b c Lb) as (ls & E & F & N & _). unfold exportCertToPEM. rewrite E, strip_pem_text; [exact N|apply cert_label_unbroken| |now right].
    eapply Forall_impl; [|exact F]. apply pem_char_unbroken.
Qed.

(** The written group *)
Definition written (w : world) (g : rgroup rtuple) (g' : group) : Prop :=
  Forall2 (fun r t => toJWSString (fst r) (snd r) = Ok t /\ fromJWSString w t = Ok r) (rg_recs g) (gr_texts g')
  /\ gr_cert g' = rg_cert g /\ gr_chain g' = rg_chain g.

(** Receipts that have texts, which need not be read as the same receipts *)
Definition made_group (w : world) (g : rgroup rtuple) : Prop :=
  Forall (fun r : rtuple => exists t, toJWSString (fst r) (snd r) = Ok t) (rg_recs g)
  /\ (forall c, rg_cert g = Some c \/ In c (rg_chain g) -> exists t, loadCert w t = Ok c).
Definition put (g : rgroup rtuple) (g' : group) : Prop :=
  Forall2 (fun (r : rtuple) t => toJWSString (fst r) (snd r) = Ok t) (rg_recs g) (gr_texts g')
  /\ gr_cert g' = rg_cert g /\ gr_chain g' = rg_chain g.

Lemma parsed_made w g : parsed_group w g -> made_group w g.
Proof.
  intros [R C]. split; [|exact C]. eapply Forall_impl; [|exact R]. intros [r alg] (t & H). destruct (jws_roundtrip w t r alg H) as (s & E & _). exists s. exact E.
Qed.
Lemma put_written w g g' : parsed_group w g -> put g g' -> written w g g'.
Proof.
  intros [R _] (F & C). split; [|exact C]. clear C. induction F as [|[r alg] t rs ts E F IH]; [constructor|].
  apply Forall_cons_iff in R as [(t0 & H) R]. constructor; [|exact (IH R)]. destruct (jws_roundtrip w t0 r alg H) as (s & E1 & E2 & _).
  cbn [fst snd] in *. rewrite E in E1. apply Ok_inj in E1. subst s. auto.
Qed.

Lemma export_texts rs : Forall (fun r : rtuple => exists t, toJWSString (fst r) (snd r) = Ok t) rs ->
  exists ts, mapM (fun r : rtuple => toJWSString (fst r) (snd r)) rs = Ok ts
    /\ Forall2 (fun (r : rtuple) t => toJWSString (fst r) (snd r) = Ok t) rs ts.
Proof.
  intros F. induction F as [|r rs (t & H) F (ts & M & F2)].
  - exists []. split; [reflexivity|constructor].
  - exists (t :: ts). split; [|now constructor]. cbn [mapM]. rewrite H. cbn [bind]. rewrite M. reflexivity.
Qed.

Lemma once_here (k : str) v (d : list (str * json)) : ~ In k (map fst d) -> once ((k, v) :: d) k v.
Proof. intros N. exists [], d. split; [reflexivity|]. split; [intros []|exact N]. Qed.
Lemma once_later k v k' v' d : k' <> k -> once d k v -> once ((k', v') :: d) k v.
Proof. intros N (a & b & -> & A & B). exists ((k', v') :: a), b. split; [reflexivity|]. split; [|exact B]. cbn [map fst]. intros [E|E]; auto. Qed.

Ltac differ := let E := fresh in intros E; apply (f_equal (fun s => str_eqb s k_cert)) in E; vm_compute in E; discriminate E.

Lemma names_apart : k_cert <> k_certs /\ k_cert <> k_recs /\ k_certs <> k_recs /\ k_bg <> k_cert.
Proof. repeat split; intros E; apply str_eqb_eq in E; vm_compute in E; discriminate E. Qed.

Definition group_json (w : world) (g : rgroup rtuple) (ts : list str) : list (str * json) :=
  [(k_cert, JStr (match rg_cert g with Some c => exportCertToPEM w c | None => [] end));
   (k_certs, JList (map (fun c => JStr (exportCertToPEM w c)) (rg_chain g)));
   (k_recs, JList (map JStr ts))].

Lemma export_group w g : pem_ok w -> made_group w g ->
  exists ts g', exportGroup w g = Ok (JDict (group_json w g ts)) /\ group_doc w (JDict (group_json w g ts)) g' /\ put g g'.
Proof.
  intros P [R C]. destruct (export_texts _ R) as (ts & M & F).
  exists ts, (Group ts (rg_cert g) (rg_chain g)). split; [|split].
  - unfold exportGroup. rewrite M. reflexivity.
  - destruct names_apart as (N1 & N2 & N3 & _).
    exists (group_json w g ts), (match rg_cert g with Some c => exportCertToPEM w c | None => [] end), (map (exportCertToPEM w) (rg_chain g)).
    cbn [gr_texts gr_cert gr_chain]. split; [reflexivity|]. unfold group_json. split; [|split; [|split; [|split]]].
    + apply once_later; [exact N2|]. apply once_later; [exact N3|]. apply once_here. intros [].
    + apply once_here. cbn [map fst]. intros [E|[E|[]]]; congruence.
    + destruct (rg_cert g) as [c|]; [|now left]. right. destruct (C c (or_introl eq_refl)) as (t & L).
      destruct (export_cert w c t P L) as [T NE]. split; [exact NE|]. now exists c.
    + rewrite map_map. apply once_later; [exact N1|]. apply once_here. cbn [map fst]. intros [E|[]]; congruence.
    + assert (forall l, (forall c, In c l -> exists t, loadCert w t = Ok c) -> Forall2 (cert_text w) (map (exportCertToPEM w) l) l) as H.
      { induction l as [|c l IH]; intros Hl; [constructor|]. cbn [map]. constructor; [|apply IH; intros; apply Hl; now right].
        destruct (Hl c (or_introl eq_refl)) as (t & L). now apply (export_cert w c t P). }
      apply H. intros c Hc. apply C. now right.
  - split; [exact F|]. split; reflexivity.
Qed.

Lemma dict_set_new (d : list (str * json)) k v : forall x, In x (map fst (dict_set d k v)) -> In x (map fst d) \/ x = k.
Proof.
  induction d as [|[k' v'] d IH]; intros x; cbn [dict_set map fst].
  - intros [<-|[]]. now right.
  - destruct (str_eqb k' k); cbn [map fst]; intros [<-|H]; cbn [In]; [tauto..|]. apply IH in H. tauto.
Qed.

Lemma extra_spec groups extra : Forall (fun kv => fst kv <> k_bg) extra ->
  exists rest, with_extra groups extra = JDict ((k_bg, groups) :: rest)
    /\ forall x, In x (map fst rest) -> In x (map fst extra).
Proof.
  intros F. unfold with_extra.
  assert (forall rest0, exists rest, fold_left (fun d kv => dict_set d (fst kv) (snd kv)) extra ((k_bg, groups) :: rest0) = (k_bg, groups) :: rest
    /\ forall x, In x (map fst rest) -> In x (map fst rest0) \/ In x (map fst extra)) as H.
  { induction F as [|[k v] extra N F IH]; intros rest0; cbn [fold_left fst snd].
    - exists rest0. split; [reflexivity|]. auto.
    - assert (dict_set ((k_bg, groups) :: rest0) k v = (k_bg, groups) :: dict_set rest0 k v) as ->.
      { cbn [dict_set]. destruct (str_eqb k_bg k) eqn:E; [|reflexivity]. apply str_eqb_eq in E. cbn [fst] in N. congruence. }
      destruct (IH (dict_set rest0 k v)) as (rest & E & Hr). exists rest. split; [exact E|]. intros x Hx.
      apply Hr in Hx as [Hx|Hx]; [|right; now right]. apply dict_set_new in Hx as [Hx| ->]; [now left|]. right. now left. }
  destruct (H []) as (rest & E & Hr). exists rest. rewrite E. split; [reflexivity|]. intros x Hx. apply Hr in Hx as [[]|Hx]. exact Hx.
Qed.

Lemma k_bg_plain : k_bg <> [] /\ dot_free k_bg.
Proof. split; [discriminate|]. unfold dot_free. intros H. assert (existsb (N.eqb c_dot) k_bg = true) as X. { apply existsb_exists. exists c_dot. split; [exact H|apply N.eqb_refl]. } vm_compute in X. discriminate. Qed.
Lemma group_names_plain w g ts : Forall (fun kv => dot_free (fst kv)) (group_json w g ts).
Proof.
  assert (forall k : str, existsb (N.eqb c_dot) k = false -> dot_free k) as H.
  { intros k E D. assert (existsb (N.eqb c_dot) k = true) as X; [|congruence]. apply existsb_exists. exists c_dot. split; [exact D|apply N.eqb_refl]. }
  unfold group_json. repeat constructor; cbn [fst]; apply H; reflexivity.
Qed.

Theorem export_made w gs extra : pem_ok w -> Forall (made_group w) gs -> extra_ok extra ->
  exists dep gs', export w (gs, None) extra = Ok dep /\ dep_doc w dep gs' /\ Forall2 put gs gs' /\ plain_names dep
    /\ (Forall (fun g => rg_cert g <> None) gs -> certs_first dep).
Proof.
  intros P F X.
  assert (exists js gs', mapM (exportGroup w) gs = Ok js /\ Forall2 (group_doc w) js gs' /\ Forall2 put gs gs'
    /\ Forall (fun j => exists g ts, In g gs /\ made_group w g /\ j = JDict (group_json w g ts)) js) as (js & gs' & M & D & W & J).
  { clear X. induction F as [|g gs G F (js & gs' & M & D & W & J)].
    - exists [], []. split; [reflexivity|]. split; [constructor|]. split; constructor.
    - destruct (export_group w g P G) as (ts & g' & E & D1 & W1). exists (JDict (group_json w g ts) :: js), (g' :: gs').
      split; [|split; [|split]].
      + cbn [mapM]. rewrite E. cbn [bind]. rewrite M. reflexivity.
      + now constructor.
      + now constructor.
      + constructor.
        * exists g, ts. split; [now left|]. split; [exact G|reflexivity].
        * eapply Forall_impl; [|exact J]. intros j (g0 & ts0 & I & H). exists g0, ts0. split; [now right|exact H]. }
  assert (Forall (fun kv : str * json => fst kv <> k_bg) extra) as X1 by (eapply Forall_impl; [|exact X]; now intros ? []).
  destruct (extra_spec (JList js) extra X1) as (rest & E & Hr).
  assert (~ In k_bg (map fst rest)) as Nr.
  { intros H. apply Hr in H. apply in_map_iff in H as (kv & Ek & H). rewrite Forall_forall in X1. now apply (X1 kv H). }
  exists (with_extra (JList js) extra), gs'. split; [|split; [|split; [exact W|split]]].
  - unfold export. cbn [fst snd]. rewrite M. reflexivity.
  - rewrite E. exists ((k_bg, JList js) :: rest), js. split; [reflexivity|]. split; [now apply once_here|exact D].
  - intros d Ed. rewrite E in Ed. injection Ed as <-. split.
    + constructor; [exact k_bg_plain|]. apply Forall_forall. intros kv H.
      assert (In (fst kv) (map fst extra)) as H' by (apply Hr; now apply in_map).
      apply in_map_iff in H' as (kv' & Ek & H'). unfold extra_ok in X. rewrite Forall_forall in X. specialize (X kv' H').
      rewrite Ek in X. unfold dot_free. tauto.
    + intros js' I g Hg. assert (js' = js) as ->.
      { destruct I as [I|I]; [now injection I as ->|]. exfalso. apply Nr. now apply (in_map fst _ (k_bg, JList js')). }
      rewrite Forall_forall in J. destruct (J _ Hg) as (g0 & ts & _ & _ & Eg). injection Eg as ->. apply group_names_plain.
  - intros C d js' g Ed I Hg. rewrite E in Ed. injection Ed as <-. assert (js' = js) as ->.
    { destruct I as [I|I]; [now injection I as ->|]. exfalso. apply Nr. now apply (in_map fst _ (k_bg, JList js')). }
    rewrite Forall_forall in J. destruct (J _ Hg) as (g0 & ts & Ig & G & Eg). injection Eg as ->.
    rewrite Forall_forall in C. specialize (C g0 Ig). destruct (rg_cert g0) as [c|] eqn:Ec; [|congruence].
    destruct G as [_ G]. rewrite Ec in G. destruct (G c (or_introl eq_refl)) as (t & L). destruct (export_cert w c t P L) as [_ NE].
    unfold group_json. rewrite Ec.
    eexists [(k_cert, JStr (exportCertToPEM w c)); (k_certs, JList (map (fun c => JStr (exportCertToPEM w c)) (rg_chain g0)))], [], _.
    split; [reflexivity|]. split; [right; now left|]. exists (exportCertToPEM w c). split; [now left|exact NE].
Qed.

Theorem export_doc w gs extra : pem_ok w -> Forall (parsed_group w) gs -> extra_ok extra ->
  exists dep gs', export w (gs, None) extra = Ok dep /\ dep_doc w dep gs' /\ Forall2 (written w) gs gs' /\ plain_names dep
    /\ (Forall (fun g => rg_cert g <> None) gs -> certs_first dep).
Proof.
  intros P F X. destruct (export_made w gs extra P) as (dep & gs' & E & D & W & H); [eapply Forall_impl; [|exact F]; apply parsed_made|exact X|].
  exists dep, gs'. split; [exact E|]. split; [exact D|]. split; [|exact H]. clear -F W.
  induction W as [|g g' gs gs' W1 W IH]; [constructor|]. apply Forall_cons_iff in F as [F1 F]. constructor; [now apply put_written|exact (IH F)].
Qed.

(** ** Reading *)

Lemma text_read w t r : fromJWSString w t = Ok r -> utf8_encode t = Ok t /\ adaptReceipt w t = Ok r.
Proof.
  destruct r as [r alg]. intros H. assert (H' := H). apply parse_reads in H' as [_ R]. assert (E := reads_encodes w t r R). split; [exact E|].
  unfold adaptReceipt. destruct (shrink_expand t) as [(b & S1 & S2)|S1]; unfold shrinkDEPReceipt in S1; [|congruence].
  rewrite E in S1. apply Ok_inj in S1. subst b. rewrite S2. exact H.
Qed.

(** What is read from encoded groups *)
Definition read_group (w : world) (dg : dgroup) (g : rgroup rtuple) : Prop :=
  Forall2 (fun b r => adaptReceipt w b = Ok r) (g_recs dg) (rg_recs g) /\ rg_cert g = g_cert dg /\ rg_chain g = g_chain dg.

Lemma adapt_spec w dg g : adaptGroup w dg = Ok g <-> read_group w dg g.
Proof.
  unfold adaptGroup, read_group. rewrite <- mapM_Ok. destruct (mapM (adaptReceipt w) (g_recs dg)) as [rs|e]; cbn [bind].
  - split.
    + intros E. apply Ok_inj in E. subst g. auto.
    + intros (E & Ec & Eh). apply Ok_inj in E. subst rs. destruct g as [gr gc gch]. cbn [rg_recs rg_cert rg_chain] in *. now subst.
  - split; [discriminate|]. intros (E & _). discriminate.
Qed.

Lemma map_list_ok {A B} (f : A -> result B) l e : forall out e', s_map_list f l e = (out, None) /\ e' = e <->
  Forall2 (fun a b => f a = Ok b) l out /\ e = None /\ e' = e.
Proof.
  induction l as [|a l IH]; intros out e'; cbn [s_map_list].
  - split.
    + intros [E ->]. injection E as <- ->. split; [constructor|auto].
    + intros (F & -> & ->). inversion F. auto.
  - split.
    + intros [E ->]. destruct (f a) as [b|] eqn:Fa; [|discriminate]. unfold s_cons in E. injection E as <- E.
      assert (s_map_list f l e = (fst (s_map_list f l e), None)) as X by (rewrite <- E; now destruct (s_map_list f l e)).
      destruct (proj1 (IH _ e) (conj X eq_refl)) as (F & E2 & _). split; [now constructor|auto].
    + intros (F & E & ->). inversion F as [|? b ? out' Fa F']; subst. rewrite Fa. destruct (proj2 (IH out' None) (conj F' (conj eq_refl eq_refl))) as [X _].
      rewrite X. split; reflexivity.
Qed.
Lemma map_list_ok' {A B} (f : A -> result B) l e out : s_map_list f l e = (out, None) <-> Forall2 (fun a b => f a = Ok b) l out /\ e = None.
Proof. pose proof (map_list_ok f l e out e) as H. tauto. Qed.

Lemma adapter_spec w chunks e gs : receiptGroupAdapter w (chunks, e) = (gs, None) <-> Forall2 (read_group w) (List.concat chunks) gs /\ e = None.
Proof.
  unfold receiptGroupAdapter. cbn [fst snd]. rewrite map_list_ok'. split; intros [F E]; (split; [|exact E]); clear E.
  - induction F; constructor; [now apply adapt_spec|assumption].
  - induction F; constructor; [now apply adapt_spec|assumption].
Qed.

(** Receipt by receipt *)
Lemma read_stamps w dgs gs : Forall2 (read_group w) dgs gs ->
  Forall2 (fun x y => adaptReceipt w (fst x) = Ok (fst y) /\ snd x = snd y) (stamped dgs) (stamps gs).
Proof.
  intros F. induction F as [|dg g dgs gs (R & C & H) F IH]; [constructor|]. rewrite stamped_cons, stamps_cons. apply Forall2_app; [|exact IH].
  rewrite C, H. clear -R. induction R; [constructor|]. cbn [map]. constructor; auto.
Qed.

Lemma readable w dgs : (forall b x, In (b, x) (stamped dgs) -> exists r, adaptReceipt w b = Ok r) -> exists gs, Forall2 (read_group w) dgs gs.
Proof.
  induction dgs as [|dg dgs IH]; intros H; [exists []; constructor|].
  destruct IH as (gs & F). { intros b x I. apply (H b x). rewrite stamped_cons. apply in_or_app. now right. }
  assert (exists rs, Forall2 (fun b r => adaptReceipt w b = Ok r) (g_recs dg) rs) as (rs & Fr).
  { assert (forall b, In b (g_recs dg) -> exists r, adaptReceipt w b = Ok r) as Hb.
    { intros b I. apply (H b (g_cert dg, g_chain dg)). rewrite stamped_cons. apply in_or_app. left. apply in_map_iff. eauto. }
    clear -Hb. induction (g_recs dg) as [|b l IH]; [exists []; constructor|].
    destruct (Hb b (or_introl eq_refl)) as (r & E). destruct IH as (rs & F); [intros; apply Hb; now right|]. exists (r :: rs). now constructor. }
  exists (RGroup rs (g_cert dg) (g_chain dg) :: gs). constructor; [|exact F]. split; [exact Fr|]. auto.
Qed.

(** The encoded form of written groups *)
Lemma written_encoded w gs gs' : Forall2 (written w) gs gs' ->
  exists dgs, Forall2 encoded gs' dgs /\ Forall2 (read_group w) dgs gs.
Proof.
  intros F. induction F as [|g g' gs gs' (R & C & H) F (dgs & E & Rd)]; [exists []; split; constructor|].
  exists (DGroup (gr_texts g') (gr_cert g') (gr_chain g') :: dgs). split; constructor; [|assumption| |assumption].
  - split; [|auto]. cbn [g_recs]. clear -R. induction R as [|r t l l' (_ & J) R IH]; constructor; [|exact IH]. now apply (text_read w t r).
  - split; [|auto]. cbn [g_recs]. clear -R. induction R as [|r t l l' (_ & J) R IH]; constructor; [|exact IH]. now apply text_read.
Qed.

Lemma stamps_read_fun w l m m' :
  Forall2 (fun (x : bytes * (option cert * list cert)) (y : rtuple * (option cert * list cert)) => adaptReceipt w (fst x) = Ok (fst y) /\ snd x = snd y) l m ->
  Forall2 (fun x y => adaptReceipt w (fst x) = Ok (fst y) /\ snd x = snd y) l m' -> m = m'.
Proof.
  apply SeqFacts.Forall2_fun. intros [b x] [r y] [r' y'] (A & B) (A' & B'). cbn [fst snd] in *. rewrite A in A'. apply Ok_inj in A'. congruence.
Qed.

Lemma chunks_read w gs dgs chunks : Forall2 (read_group w) dgs gs -> flat_map stamped chunks = stamped dgs ->
  exists out, receiptGroupAdapter w (chunks, None) = (out, None) /\ stamps out = stamps gs.
Proof.
  intros R S. assert (Rs := read_stamps w dgs gs R). rewrite <- S, <- concat_stamped in Rs.
  destruct (readable w (List.concat chunks)) as (out & F).
  { intros b x I. clear -Rs I. induction Rs as [|[b' x'] y l l' [A _] F IH]; [destruct I|]. destruct I as [E|I]; [|now apply IH]. injection E as -> ->. eauto. }
  exists out. split; [now apply adapter_spec|]. now apply (stamps_read_fun w _ _ _ (read_stamps w _ _ F)).
Qed.

Definition occupied_group {A} (g : rgroup A) : bool := match rg_recs g with [] => false | _ => true end.

Lemma read_filled w dgs gs : Forall2 (read_group w) dgs gs -> Forall2 (read_group w) (filled dgs) (filter occupied_group gs).
Proof.
  intros F. induction F as [|dg g dgs gs R F IH]; [constructor|]. unfold filled in *. cbn [filter]. unfold occupied_group at 1.
  assert (R' := R). destruct R' as (Rr & _). inversion Rr as [E1 E2|? ? ? ? ? ? E1 E2]; [exact IH|]. now constructor.
Qed.

Lemma filled_stamps w dgs gs : Forall2 (read_group w) dgs gs -> filled dgs <> [] <-> stamps gs <> [].
Proof.
  intros F. assert (Rs := read_stamps w dgs gs F). change (filled dgs) with (filter has_receipts dgs). rewrite <- stamped_filter in Rs. split; intros N E.
  - rewrite E in Rs. inversion Rs as [E'|]. clear -N E'. pose proof (filled_full dgs) as Fu. unfold full in Fu. change (filled dgs) with (filter has_receipts dgs) in Fu.
    destruct (filter has_receipts dgs) as [|g l]; [congruence|]. inversion Fu as [|? ? Hg]; subst. rewrite stamped_cons in E'. destruct (g_recs g); [congruence|discriminate].
  - rewrite E in Rs. inversion Rs. congruence.
Qed.

(** The round trip *)
Theorem export_parse w gs extra : pem_ok w -> Forall (parsed_group w) gs -> extra_ok extra -> stamps gs <> [] ->
  exists dep, export w (gs, None) extra = Ok dep
    /\ receiptGroupAdapter w (parse_inc w P_file dep 0) = (filter occupied_group gs, None)
    /\ (forall n, exists gs', receiptGroupAdapter w (parse_inc w P_file dep n) = (gs', None) /\ stamps gs' = stamps gs)
    /\ (Forall (fun g => rg_cert g <> None) gs ->
        forall n, exists gs', receiptGroupAdapter w (parse_inc w P_stream dep n) = (gs', None) /\ stamps gs' = stamps gs)
    /\ (forall nparts n, exists gs', receiptGroupAdapter w (parse_dict w nparts (load dep) n) = (gs', None) /\ stamps gs' = stamps gs).
Proof.
  intros P F X N. destruct (export_doc w gs extra P F X) as (dep & gs' & E & D & W & Pl & C).
  destruct (written_encoded w gs gs' W) as (dgs & En & Rd). assert (NF := proj2 (filled_stamps w dgs gs Rd) N).
  exists dep. split; [exact E|]. split; [|split; [|split]].
  - rewrite (proj1 (unlimited w dep gs' dgs D Pl En NF)). apply adapter_spec. cbn [List.concat]. rewrite app_nil_r. split; [now apply read_filled|reflexivity].
  - intros n. rewrite (file_chunks w dep n gs' dgs D Pl En NF). apply (chunks_read w gs dgs); [exact Rd|]. apply inc_faithful.
  - intros Hc n. rewrite (stream_chunks w dep n gs' dgs D Pl (C Hc) En NF). apply (chunks_read w gs dgs); [exact Rd|]. apply inc_faithful.
  - intros nparts n. assert (parse_dict w nparts (load dep) n = (dict_chunks (effective_size nparts (load dep) n) dgs, None)) as ->.
    { apply parse_dict_chunks. exists gs', dgs. split; [now apply load_doc|]. auto. }
    apply (chunks_read w gs dgs); [exact Rd|]. apply dict_faithful.
Qed.
