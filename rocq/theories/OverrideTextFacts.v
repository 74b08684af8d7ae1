(** Replaced texts get into the DEP as they are, and are noticed. *)
From Coq Require Import Lia ZifyClasses ZifyN ZifyNat ZifyBool.
From Verif Require Import PyBase World ListFacts Codec CodecFacts PyFloat PyTime Algo Receipt SpecReceipt ReceiptFacts Json Pem KeyStore State
  DepBase DepParser Verify DepExport VerifyReceipt VerifyFacts SpecDep SpecCluster SpecDoc SpecKeys SpecMerge SpecExport ExportFacts SeqFacts SpecState
  SpecReading ReadingFacts SpecDiag DiagFacts CaughtFacts DepFacts SpecAmount CashReg SpecCashReg CashRegFacts CashRegSeq Override OverrideFacts SpecOverride OverrideCaught AcceptFacts
  OverrideText SpecOverrideText.
Open Scope N_scope.
Open Scope py_scope.

Definition strip (m : mangled * str) : rtuple := (m_rec (fst m), snd m).

(** The replaced texts have no influence on register and receipts. *)
Theorem texts_strip w qs : forall g,
  issue_all_over w g (map fst qs) = (fst (issue_texts w g qs), do l <- snd (issue_texts w g qs); Ok (map strip l)).
Proof.
  induction qs as [|[[q o] x] qs IH]; intros g; [reflexivity|]. cbn [map fst issue_all_over issue_texts].
  destruct (issue_over w g (lit "R1") o q) as [g' [r|e]]; [|reflexivity].
  rewrite IH. destruct (issue_texts w g' qs) as [g'' [l|e]]; reflexivity.
Qed.

Lemma texts_kept w qs : forall g g' l, issue_texts w g qs = (g', Ok l) -> map (fun m : mangled * str => m_jws (fst m)) l = map snd qs.
Proof.
  induction qs as [|[[q o] x] qs IH]; intros g g' l; cbn [issue_texts].
  - intros [= _ <-]. reflexivity.
  - destruct (issue_over w g (lit "R1") o q) as [g1 [r|e]]; [|discriminate].
    destruct (issue_texts w g1 qs) as [g2 [l2|e]] eqn:E; [|discriminate]. cbn [bind]. intros [= _ <-]. cbn [map fst snd m_jws].
    f_equal. exact (IH _ _ _ E).
Qed.

Lemma texts_replaced l : forall ts, mapM (fun r : mangled * str => mangled_text (fst r) (snd r)) l = Ok ts ->
  replaced (map (fun m : mangled * str => m_jws (fst m)) l) (map strip l) ts.
Proof.
  induction l as [|[[r x] p] l IH]; intros ts; cbn [mapM].
  - intros H. apply Ok_inj in H. subst ts. constructor.
  - intros H. apply bind_Ok in H as (t & Et & H). apply bind_Ok in H as (ts' & E & H). apply Ok_inj in H. subst ts. cbn [map fst snd m_jws].
    destruct x as [x|]; cbn [mangled_text m_jws fst snd m_rec] in Et.
    + apply Ok_inj in Et. subst t. constructor. exact (IH _ E).
    + apply rep_own; [exact Et|exact (IH _ E)].
Qed.

Lemma mangled_dep w l cert chain dep : pem_ok w -> (forall c, cert = Some c \/ In c chain -> exists t, loadCert w t = Ok c) ->
  export_mangled w [RGroup l cert chain] = Ok dep ->
  exists ts, mapM (fun r : mangled * str => mangled_text (fst r) (snd r)) l = Ok ts /\ dep_is w dep [Group ts cert chain].
Proof.
  intros P C H. unfold export_mangled in H. cbn [mapM] in H. apply bind_Ok in H as (js & H & E). apply Ok_inj in E.
  apply bind_Ok in H as (j & Ej & H). apply bind_Ok in H as (js' & E' & H). apply Ok_inj in E', H. subst js' js.
  unfold export_mangled_group in Ej. cbn [rg_recs rg_cert rg_chain] in Ej. apply bind_Ok in Ej as (ts & T & Ej). apply Ok_inj in Ej.
  exists ts. split; [exact T|]. subst dep. eexists _, _. split; [reflexivity|]. split; [reflexivity|]. constructor; [|constructor]. subst j.
  eexists _, _, _, (map (exportCertToPEM w) chain). split; [reflexivity|]. split; [reflexivity|]. split; [now left|]. split; [reflexivity|].
  cbn [gr_cert gr_chain]. split; [|split].
  - destruct cert as [c|]; [|now left]. right. destruct (C c (or_introl eq_refl)) as (t & L).
    destruct (export_cert w c t P L) as [X NE]. split; [exact NE|]. now exists c.
  - rewrite map_map. reflexivity.
  - assert (forall m, (forall c, In c m -> exists t, loadCert w t = Ok c) -> Forall2 (cert_text w) (map (exportCertToPEM w) m) m) as H.
    { induction m as [|c m IH]; intros Hl; [constructor|]. cbn [map]. constructor; [|apply IH; intros; apply Hl; now right].
      destruct (Hl c (or_introl eq_refl)) as (t & L). now apply (export_cert w c t P). }
    apply H. intros c Hc. apply C. now right.
Qed.

Theorem replaced_dep w g qs g' l cert chain dep : pem_ok w -> (forall c, cert = Some c \/ In c chain -> exists t, loadCert w t = Ok c) ->
  issue_texts w g qs = (g', Ok l) -> export_mangled w [RGroup l cert chain] = Ok dep ->
  exists recs texts, issue_all_over w g (map fst qs) = (g', Ok recs) /\ dep_is w dep [Group texts cert chain]
    /\ replaced (map snd qs) recs texts.
Proof.
  intros P C I E. destruct (mangled_dep w l cert chain dep P C E) as (ts & T & D). exists (map strip l), ts.
  split; [|split; [exact D|]].
  - rewrite texts_strip, I. reflexivity.
  - rewrite <- (texts_kept w qs g g' l I). exact (texts_replaced l ts T).
Qed.

(** ** Regular receipts, then a text that cannot be read *)

Lemma replaced_app xs ys : forall rs ts, replaced (xs ++ ys) rs ts ->
  exists r1 r2 t1 t2, rs = r1 ++ r2 /\ ts = t1 ++ t2 /\ List.length r1 = List.length xs /\ replaced xs r1 t1 /\ replaced ys r2 t2.
Proof.
  induction xs as [|x xs IH]; intros rs ts H; cbn [app] in H.
  - exists [], rs, [], ts. repeat split; [constructor|exact H].
  - inversion H as [|t ? r rs' ts' R|t ? r rs' ts' J R]; subst.
    all: destruct (IH _ _ R) as (r1 & r2 & t1 & t2 & -> & -> & L & R1 & R2); exists (r :: r1), r2, (t :: t1), t2;
      repeat split; [cbn [List.length]; now rewrite L| |exact R2].
    + now apply rep_given.
    + now apply rep_own.
Qed.

Lemma replaced_none {A} (l : list A) : forall rs ts, replaced (map (fun _ => None) l) rs ts ->
  mapM (fun r : rtuple => toJWSString (fst r) (snd r)) rs = Ok ts.
Proof.
  induction l as [|x l IH]; intros rs ts H; inversion H as [| |t ? r rs' ts' J R]; subst; [reflexivity|].
  cbn [mapM]. rewrite J. cbn [bind]. rewrite (IH _ _ R). reflexivity.
Qed.

Lemma over_app w a b : forall g g' recs, issue_all_over w g (a ++ b) = (g', Ok recs) ->
  exists g1 r1 r2, issue_all_over w g a = (g1, Ok r1) /\ issue_all_over w g1 b = (g', Ok r2) /\ recs = r1 ++ r2 /\ List.length r1 = List.length a.
Proof.
  induction a as [|[q o] a IH]; intros g g' recs; cbn [app issue_all_over].
  - intros H. exists g, [], recs. auto.
  - destruct (issue_over w g (lit "R1") o q) as [g1 [r|e]]; [|discriminate].
    destruct (issue_all_over w g1 (a ++ b)) as [g2 [l|e]] eqn:E; [|discriminate]. cbn [bind]. intros [= <- <-].
    destruct (IH _ _ _ E) as (g3 & r1 & r2 & -> & E2 & -> & L). exists g3. eexists _, r2. cbn [bind].
    split; [reflexivity|]. split; [exact E2|]. split; [reflexivity|]. cbn [List.length]. now rewrite L.
Qed.

Definition regular (q : request) : request * override * option str := (q, no_override, None).

Lemma combine_same {A B} (l : list A) (v : B) : forall n, List.length l = n -> combine l (repeat v n) = map (fun t => (t, v)) l.
Proof. induction l as [|x l IH]; intros [|n] H; try discriminate; [reflexivity|]. cbn. rewrite IH; [reflexivity|]. now injection H. Qed.

Theorem unreadable_caught w ks b key id k size g0 qs q o t rest g' l c chain dep e : hash_ok w -> aes_ok w -> pem_ok w ->
  identifier id -> List.length k = 32%nat -> new_cashreg id None 0 k size = Ok g0 -> key = None \/ key = Some k ->
  orderly w size b (map (fun q => (q, fromCert c)) qs) ->
  issue_texts w g0 (map regular qs ++ (q, o, Some t) :: rest) = (g', Ok l) ->
  (forall a, a = c \/ In a chain -> exists s, loadCert w s = Ok a) -> trusted w ks c chain ->
  export_mangled w [RGroup l (Some c) chain] = Ok dep ->
  (forall gs, dep_is w dep gs -> texts_encodable ks gs) -> text_fault w t e ->
  exists c', verifyDEP w dep ks key (new_cluster b) None = (c', Some e).
Proof.
  intros Hh Ha P Id Lk New Ky Or I C T E En F.
  assert (forall a, Some c = Some a \/ In a chain -> exists s, loadCert w s = Ok a) as C'.
  { intros a [A|A]; apply C; [left|now right]. now injection A. }
  destruct (replaced_dep w g0 _ g' l (Some c) chain dep P C' I E) as (recs & texts & Eo & D & R).
  rewrite map_app in R, Eo. cbn [map fst snd] in R, Eo. rewrite !map_map in R, Eo.
  apply replaced_app in R as (r1 & r2 & t1 & t2 & -> & -> & L & R1 & R2).
  apply over_app in Eo as (g1 & r1' & r2' & E1 & _ & Er & L').
  assert (r1 = r1') as <-.
  { rewrite map_length in L, L'. apply (f_equal (firstn (List.length r1))) in Er. rewrite firstn_app, Nat.sub_diag, firstn_all, firstn_O, app_nil_r in Er.
    rewrite Er, L, <- L', firstn_app, Nat.sub_diag, firstn_all, firstn_O, app_nil_r. reflexivity. }
  inversion R2 as [|? ? r ? ts R2'|]; subst.
  cbn [regular fst snd] in E1, R1. rewrite issue_all_none in E1. apply replaced_none in R1.
  unfold new_cashreg in New. destruct (negb _) eqn:Sz in New; [|discriminate]. apply Ok_inj in New.
  assert (register_ok g0) as G0. { subst g0. split; [exact Id|]. split; [exact Lk|]. split; [cbn; lia|]. intros s [=]. }
  assert (cr_last g0 = None /\ cr_counter g0 = 0%Z /\ cr_key g0 = k /\ cr_size g0 = size) as (L0 & C0 & K0 & Z0) by (subst g0; auto).
  clear New. set (lq := map (fun q => (q, fromCert c)) qs) in *.
  assert (map fst lq = qs) as Q1. { unfold lq. rewrite map_map. cbn [fst]. apply map_id. }
  pose proof Or as (Ql & _ & _ & _ & Co & _).
  destruct (issue_all_run w lq Hh Ha g0 G0 Ql) as (items & g2 & Ei & R).
  { intros l1 q0 l2 z Eq Sd Tz. rewrite C0, Z0. exact (Co l1 q0 l2 z Eq Sd Tz). }
  rewrite Q1, E1 in Ei. injection Ei as <- ->.
  assert (key_given key g0) as Kg0. { intros k' E'. destruct Ky as [Ky|Ky]; rewrite Ky in E'; [discriminate|]. injection E' as <-. now symmetry. }
  rewrite <- Z0 in Or. pose proof (run_valid w b key g0 _ _ _ G0 L0 C0 Kg0 Or R) as V.
  pose proof (run_texts w g0 lq items g1 t1 R R1) as FI.
  assert (combine t1 (map snd lq) = map (fun s => (s, fromCert c)) t1) as Ec.
  { apply mapM_Ok, Forall2_len in R1. rewrite L, map_length in R1.
    replace (map snd lq) with (repeat (fromCert c) (List.length qs)); [now apply combine_same|].
    unfold lq. rewrite map_map. cbn [snd]. clear. induction qs as [|x m IH]; [reflexivity|]. cbn. now rewrite IH. }
  rewrite Ec in FI. pose proof (En _ D) as TE.
  assert (dep_texts ks [Group (t1 ++ t :: ts) (Some c) chain] = map (fun s => (s, fromCert c)) t1 ++ (t, fromCert c) :: map (fun s => (s, fromCert c)) ts) as ET.
  { unfold dep_texts. cbn [flat_map gr_texts gr_cert verifier_of]. rewrite app_nil_r, map_app. reflexivity. }
  assert (encodable t) as Et.
  { unfold texts_encodable in TE. rewrite ET in TE. apply Forall_app in TE as [_ TE]. apply Forall_inv in TE. exact TE. }
  destruct (verifyDEP_located w dep _ ks key (new_cluster b) None [] new_register [] None (map (fun s => (s, fromCert c)) t1) items t (fromCert c)
    (map (fun s => (s, fromCert c)) ts) Hh D TE) as (c' & e' & Ev & Rj).
  - apply sel_new; [now left|now left].
  - now left.
  - exists None. now left.
  - left. apply Forall_forall. intros gr Hg. apply filter_In in Hg as [[<-|[]] _]. exists c. split; [reflexivity|exact T].
  - exact ET.
  - exact FI.
  - exact V.
  - intros r' R' _. destruct (fault_unread _ _ _ _ F R').
  - exists c'. rewrite Ev. do 2 f_equal. destruct Rj as [Ur|(r' & R' & _)]; [|destruct (fault_unread _ _ _ _ F R')].
    apply jws_diagnosis in Ur, F; [|exact Et..]. congruence.
Qed.

(** ** The next receipt is chained to the text that was replaced. *)
Theorem replaced_last w g q o x g' m : issue_texts w g [(q, o, x)] = (g', Ok [m]) -> ov_header o = None -> ov_signature o = None ->
  exists jws, cr_last g' = Some jws /\ toJWSString (m_rec (fst m)) (snd m) = Ok jws.
Proof.
  cbn [issue_texts]. destruct (issue_over w g (lit "R1") o q) as [g1 [r|e]] eqn:E; [|discriminate]. cbn [bind]. intros [= <- <-] Hh Hs.
  destruct (over_fields w g (lit "R1") o q g1 r E) as (_ & _ & _ & _ & _ & jws & p' & L & [V1 V2] & J). exists jws. split; [exact L|].
  cbn [fst snd m_rec]. rewrite <- (J Hh Hs). f_equal. unfold given. destruct (ov_prefix o) as [p|]; [symmetry; now apply V1|symmetry; now apply V2].
Qed.

(** ** Receipts whose texts are not replaced, or by the same texts, are exported as usual. *)
Lemma own_texts l : Forall (fun m : mangled * str => forall t, m_jws (fst m) = Some t -> toJWSString (m_rec (fst m)) (snd m) = Ok t) l ->
  mapM (fun r : mangled * str => mangled_text (fst r) (snd r)) l = mapM (fun r : rtuple => toJWSString (fst r) (snd r)) (map strip l).
Proof.
  induction 1 as [|[[r x] p] l H F IH]; [reflexivity|]. cbn [map mapM strip fst snd m_rec]. rewrite IH. f_equal.
  unfold mangled_text. cbn [m_jws m_rec fst snd] in *. destruct x as [t|]; [symmetry; now apply H|reflexivity].
Qed.

Theorem own_export w gs :
  Forall (fun g : rgroup (mangled * str) =>
    Forall (fun m => forall t, m_jws (fst m) = Some t -> toJWSString (m_rec (fst m)) (snd m) = Ok t) (rg_recs g)) gs ->
  export_mangled w gs = export w (map (fun g => RGroup (map strip (rg_recs g)) (rg_cert g) (rg_chain g)) gs, None) [].
Proof.
  intros F. unfold export_mangled, export. cbn [fst snd]. f_equal.
  induction F as [|g gs H F IH]; [reflexivity|]. cbn [map mapM]. rewrite IH. f_equal.
  unfold export_mangled_group, exportGroup. cbn [rg_recs rg_cert rg_chain]. now rewrite (own_texts _ H).
Qed.
