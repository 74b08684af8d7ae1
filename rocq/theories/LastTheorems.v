(** Faults of the last receipt: documents, files and overrides. *)
From Coq Require Import Lia Floats.SpecFloat.
From Verif Require Import PyBase World Codec PyFloat PyTime Algo Receipt ListFacts CodecFacts SpecReceipt ReceiptFacts
  DepBase Json Pem KeyStore VerifyReceipt State DepParser Verify SpecDep VerifyFacts StepFacts DepFacts SpecCluster ClusterFacts SeqFacts
  AcceptFacts RoundTrip2 SpecState SpecDoc SpecChunks ChunkFacts DictFacts ParTheorems IncDoc IncTheorems SpecReading ReadingFacts SpecDiag DiagFacts CaughtFacts DepExport SpecAmount CashReg SpecCashReg
  Override SpecOverride OverrideCaught LastFault LastCaught.
Open Scope N_scope.
Open Scope py_scope.

(** Both exceptions are about the same receipt, and right. *)
Definition both_right (w : world) (key : option bytes) (ps : option str) (reg : regstate) (u : used) (p : option past)
    (items : list item) (t : str) (v : verifier) (e e' : exn) : Prop :=
  (text_fault w t e /\ e' = e)
  \/ exists r reg1, reads w t r /\ register_after key reg p items reg1
     /\ fault w key ps reg1 (used_after u items) (last_of p items) (Item t r v) e
     /\ fault w key ps reg1 (used_after u items) (last_of p items) (Item t r v) e'.

Lemma read_not w t e r : fromJWSString w t = Err e -> ~ reads w t r.
Proof. intros P R. assert (fromJWSString w t = Ok (r, lit "R1")) by now apply parse_reads. congruence. Qed.

Lemma found_both w key ps reg u p items t v e e' : valid_sequence w key ps reg u p items ->
  encodable t -> found w key ps reg u p items t v e -> found w key ps reg u p items t v e' -> both_right w key ps reg u p items t v e e'.
Proof.
  intros V Et [P|(r & R & F)] [P'|(r' & R' & F')].
  - left. split; [now apply jws_diagnosis|congruence].
  - exfalso. exact (read_not _ _ _ _ P R').
  - exfalso. exact (read_not _ _ _ _ P' R).
  - right. rewrite (reads_fun _ _ _ _ R' R) in F'. exists r, (after key reg p items). split; [exact R|]. split; [|auto].
    now apply (register_after_iff w key ps reg u p items _ V).
Qed.

Lemma last_encodable ks gs ts t v : texts_encodable ks gs -> dep_texts ks gs = ts ++ [(t, v)] -> encodable t.
Proof. unfold texts_encodable. intros TE ET. rewrite ET in TE. apply Forall_app in TE as [_ TE]. exact (Forall_inv TE). Qed.

Lemma last_filled ks gs dgs ts t v : Forall2 encoded gs dgs -> dep_texts ks gs = ts ++ [(t, v)] -> filled dgs <> [].
Proof.
  intros E ET X. pose proof (flat_texts ks gs dgs E) as F. rewrite <- flat_filled, X, ET in F. inversion F as [Y|]. destruct ts; discriminate.
Qed.

Section Last.
Variables (w : world) (sch : schedule) (ks : keystore) (key : option bytes) (c : cluster) (idx : option Z) (before : list regstate) (reg : regstate)
  (after' : list regstate) (p : option past) (gs : list group) (ts : list (str * verifier)) (items : list item) (t : str) (v : verifier).
Hypothesis HO : hash_ok w.
Hypothesis Iso : isolated sch.
Hypothesis UC : usual_cluster c.
Hypothesis TE : texts_encodable ks gs.
Hypothesis Se : selects c idx before reg after'.
Hypothesis P : past_of w reg p.
Hypothesis SR : start_readable w (start_of_last before).
Hypothesis TR : trust_rule w ks (occupied gs).
Hypothesis ET : dep_texts ks gs = ts ++ [(t, v)].
Hypothesis FI : Forall2 (text_item w) ts items.
Hypothesis V : valid_sequence w key (start_of_last before) reg (c_used c) p items.
Hypothesis Bad : forall r, reads w t r -> ~ valid_sequence w key (start_of_last before) reg (c_used c) p (items ++ [Item t r v]).

Theorem both_dict dep nparts n : dep_is w dep gs -> exists c' e e', verifyDEP w dep ks key c idx = (c', Some e)
  /\ verifyParsedDEP w sch (parse_dict w nparts dep n) ks key c idx = (c', Some e')
  /\ both_right w key (start_of_last before) reg (c_used c) p items t v e e'.
Proof.
  intros DI. destruct (tuples_encodable ks gs TE) as (dgs & E).
  assert (parse_dict w nparts dep n = (dict_chunks (effective_size nparts dep n) dgs, None)) as ->.
  { apply parse_dict_chunks. exists gs, dgs. split; [exact DI|]. split; [exact E|]. split; [exact (last_filled _ _ _ _ _ _ E ET)|reflexivity]. }
  destruct (both_report w sch dep gs dgs (dict_chunks (effective_size nparts dep n) dgs) ks key c idx before reg after' p ts items t v HO Iso UC DI E (dict_faithful _ dgs)
              Se P SR TR ET FI V Bad) as (c' & e & e' & A & B & F & F').
  exists c', e, e'. split; [exact A|]. split; [exact B|]. exact (found_both _ _ _ _ _ _ _ _ _ _ _ V (last_encodable _ _ _ _ _ TE ET) F F').
Qed.

Theorem both_file doc n : dep_doc w doc gs -> plain_names doc -> exists c' e e', verifyDEP w (load doc) ks key c idx = (c', Some e)
  /\ verifyParsedDEP w sch (parse_inc w P_file doc n) ks key c idx = (c', Some e')
  /\ both_right w key (start_of_last before) reg (c_used c) p items t v e e'.
Proof.
  intros D Pl. destruct (tuples_encodable ks gs TE) as (dgs & E).
  rewrite (file_chunks w doc n gs dgs D Pl E (last_filled _ _ _ _ _ _ E ET)).
  destruct (both_report w sch (load doc) gs dgs (inc_chunks n dgs) ks key c idx before reg after' p ts items t v HO Iso UC (load_doc _ _ _ D) E (inc_faithful n dgs)
              Se P SR TR ET FI V Bad) as (c' & e & e' & A & B & F & F').
  exists c', e, e'. split; [exact A|]. split; [exact B|]. exact (found_both _ _ _ _ _ _ _ _ _ _ _ V (last_encodable _ _ _ _ _ TE ET) F F').
Qed.
End Last.

Theorem injected_both w sch ks b key id k size g0 l q v o g recs texts g' r t gs dep nparts n e : hash_ok w -> aes_ok w -> isolated sch ->
  identifier id -> List.length k = 32%nat -> new_cashreg id None 0 k size = Ok g0 -> key = None \/ key = Some k ->
  orderly w size b (l ++ [(q, v)]) ->
  issue_all w g0 (map fst l) = (g, Ok recs) -> mapM (fun r : rtuple => toJWSString (fst r) (snd r)) recs = Ok texts ->
  issue_over w g (lit "R1") o q = (g', Ok r) -> toJWSString r (lit "R1") = Ok t -> injected w b key g (map fst l) q v r o e ->
  dep_is w dep gs -> texts_encodable ks gs -> trust_rule w ks (occupied gs) ->
  dep_texts ks gs = combine texts (map snd l) ++ [(t, v)] ->
  exists c', verifyDEP w dep ks key (new_cluster b) None = (c', Some e)
    /\ verifyParsedDEP w sch (parse_dict w nparts dep n) ks key (new_cluster b) None = (c', Some e).
Proof.
  intros Hh Ha Iso Id Lk New Ky Or Ei Et Eo J X DI TE TR ET.
  assert (proper v) as Pv. { apply (dep_texts_proper ks gs t). rewrite ET. apply in_or_app. right. now left. }
  destruct (injected_place w b key id k size g0 l q v o g recs texts g' r t e Hh Ha Id Lk New Ky Or Ei Et Eo J X Pv) as (items & rr & FI & V1 & Rr & Ft & Fu).
  destruct (both_dict w sch ks key (new_cluster b) None [] new_register [] None gs (combine texts (map snd l)) items t v Hh Iso) with (dep := dep) (nparts := nparts) (n := n)
    as (c' & e1 & e2 & E1 & E2 & [(U & _)|(r1 & reg1 & R1 & RA & F1 & F2)]); try assumption.
  - apply new_usual.
  - apply sel_new; [now left|now left].
  - now left.
  - exists None. now left.
  - intros r1 R1 H. rewrite (reads_fun _ _ _ _ R1 Rr) in H. apply valid_app in H as [_ H]. apply valid_cons in H as [H _]. revert H.
    exact (fault_wrong w key None _ _ _ (Item t rr v) e Pv Rr Ft).
  - exfalso. exact (fault_unread _ _ _ _ U Rr).
  - exists c'. apply (register_after_iff w key None new_register (used_new b) None items reg1 V1) in RA. change (reg1 = after key new_register None items) in RA. subst reg1.
    rewrite (reads_fun _ _ _ _ R1 Rr) in F1, F2. rewrite E1, E2. now rewrite (Fu _ F1), (Fu _ F2).
Qed.
