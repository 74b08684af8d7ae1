(** Test specifications with a fault in the last receipt. *)
From Coq Require Import Lia ZifyClasses ZifyN ZifyNat ZifyBool.
From Verif Require Import PyBase World ListFacts Codec CodecFacts PyFloat PyTime Algo Receipt SpecReceipt ReceiptFacts Json Pem KeyStore State
  DepBase DepParser Verify DepExport VerifyReceipt VerifyFacts SpecDep SpecCluster SpecDoc SpecKeys SpecMerge SpecExport ExportFacts AcceptFacts SeqFacts SpecState ParTheorems ClusterFacts
  DepFacts SpecDiag DiagFacts CaughtFacts SpecAmount CashReg SpecCashReg CashRegFacts CashRegSeq Override OverrideFacts SpecOverride OverrideCaught LastCaught LastTheorems
  RunTest SpecRunTest RunTestFacts RunTestSeq TestVerify SpecTestVerify TestVerifyFacts.
Open Scope N_scope.
Open Scope py_scope.

Section over.
Variables (w : world) (id : str) (key : bytes) (size : nat) (multi : bool) (devs : list device).

(** ** Making the receipts *)
Definition stamp_of (d : device) : option cert * list cert := (device_certificate multi d, if multi then dv_chain d else []).
Definition stamped_rec (x : rtuple * device) : rtuple * (option cert * list cert) := (fst x, stamp_of (snd x)).

(** The receipts, each with the name of the algorithm it is printed with, and their
    devices *)
Definition prefix_of (i : instr) : str := given (ov_prefix (in_over i)) (lit "R1").
Fixpoint makes (g : cashreg) (l : list instr) (rs : list (rtuple * device)) (g' : cashreg) : Prop :=
  match l, rs with
  | [], [] => g' = g
  | i :: l, (r, d) :: rs =>
      in_new i = NO_NEW_DEP /\ nth_error devs (in_dev i) = Some d /\ snd r = prefix_of i
      /\ exists g1, issue_over w g (lit "R1") (in_over i) (instr_request d i) = (g1, Ok (fst r)) /\ makes g1 l rs g'
  | _, _ => False
  end.

Lemma makes_app l1 l2 rs1 rs2 : forall g g1 g2, makes g l1 rs1 g1 -> makes g1 l2 rs2 g2 -> makes g (l1 ++ l2) (rs1 ++ rs2) g2.
Proof.
  revert rs1. induction l1 as [|i l1 IH]; intros [|[r d] rs1] g g1 g2 M1 M2; try (destruct M1; fail).
  - cbn [makes] in M1. subst g1. exact M2.
  - destruct M1 as (A & B & C & g0 & D & M1). cbn [app makes]. split; [exact A|]. split; [exact B|]. split; [exact C|]. exists g0. split; [exact D|]. exact (IH _ _ _ _ M1 M2).
Qed.

Record sinv (st : gen) (g : cashreg) (rs : list (rtuple * device)) : Prop := Sinv {
  si_heap : gn_heap st = [g];
  si_reg : gn_reg st = 0%nat;
  si_deps : gn_deps st = [];
  si_extra : gn_extra st = [];
  si_start : exists s, truthy (gn_start st) = Some s;
  si_groups : exists p d, gn_sig st = Some p /\ nth_error devs p = Some d
    /\ stamps (gn_groups st ++ [last_group multi st d]) = map stamped_rec rs
    /\ Forall (fun g => rg_recs g <> []) (gn_groups st ++ [last_group multi st d]);
  si_single : multi = false -> gn_groups st = []
}.

Lemma stamps_app (a b : list (rgroup rtuple)) : stamps (a ++ b) = stamps a ++ stamps b.
Proof. unfold stamps. apply flat_map_app. Qed.

Lemma sinv_step st g rs i d r g' : sinv st g rs -> in_new i = NO_NEW_DEP -> nth_error devs (in_dev i) = Some d -> snd r = prefix_of i ->
  issue_over w g (lit "R1") (in_over i) (instr_request d i) = (g', Ok (fst r)) ->
  exists st', gen_step w id key size multi devs st i = Ok st' /\ sinv st' g' (rs ++ [(r, d)]).
Proof.
  intros [H1 H2 H3 H4 (s & H5) (p & d0 & Es & Ed0 & H6 & H7) H8] Ni Ed Np Ei. unfold gen_step. rewrite (item_at_Some _ _ _ Ed). cbn [bind].
  unfold new_in_cluster. rewrite Ni. cbn [bind].
  assert (exists st1, end_group multi devs st i = Ok st1
    /\ st1 = Gen (gn_heap st) (gn_reg st) (gn_r2r st) (gn_r2d st) (gn_cur st) (gn_start st) (gn_prev st) (gn_groups st1) (gn_extra st) (gn_recs st1) (gn_sig st)
               (gn_expected st) (gn_deps st)
    /\ (multi = false -> gn_groups st1 = [])
    /\ stamps (gn_groups st1 ++ [RGroup (gn_recs st1 ++ [r]) (device_certificate multi d) (if multi then dv_chain d else [])]) = map stamped_rec (rs ++ [(r, d)])
    /\ Forall (fun g => rg_recs g <> []) (gn_groups st1)) as (st1 & -> & E & S1 & S2 & S3).
  { unfold end_group. rewrite Es, Ni. cbn [orb]. rewrite map_app. cbn [map]. rewrite <- H6. unfold stamped_rec, stamp_of. cbn [fst snd]. apply Forall_app in H7 as [H7 H7'].
    destruct multi eqn:Em.
    - destruct (p =? in_dev i)%nat eqn:Ep; cbn [negb].
      + apply Nat.eqb_eq in Ep. subst p. rewrite Ed in Ed0. apply Some_inj in Ed0. subst d0. exists st. split; [reflexivity|]. split; [rewrite <- Es; exact (gen_eta st)|]. split; [congruence|].
        split; [|exact H7]. rewrite !stamps_app, <- app_assoc. f_equal. unfold last_group, stamps. cbn [flat_map rg_recs rg_cert rg_chain]. rewrite !app_nil_r, map_app. reflexivity.
      + rewrite (item_at_Some _ _ _ Ed0). cbn [bind]. eexists. split; [reflexivity|]. split; [unfold append_group; cbn [gn_groups gn_recs]; now rewrite Es|]. split; [congruence|].
        cbn [append_group gn_groups gn_recs]. split; [rewrite stamps_app; f_equal|]. apply Forall_app. split; [exact H7|exact H7'].
    - exists st. split; [reflexivity|]. split; [rewrite <- Es; exact (gen_eta st)|]. split; [exact H8|]. split; [|exact H7]. rewrite !stamps_app, <- app_assoc. f_equal.
      unfold last_group, stamps. cbn [flat_map rg_recs rg_cert rg_chain]. rewrite !app_nil_r, map_app. reflexivity. }
  cbn [bind]. revert E S1 S2 S3. generalize (gn_groups st1) (gn_recs st1). intros gs1 rs1 -> S1 S2 S3.
  unfold end_dep. rewrite Ni. cbn [bind]. unfold add_receipt. cbn [gn_heap gn_reg gn_r2r gn_r2d gn_cur gn_start gn_prev gn_groups gn_extra gn_recs gn_sig gn_expected gn_deps].
  rewrite H1, H2. cbn [item_at nth_error bind]. rewrite Ei. cbn [bind]. fold (prefix_of i). rewrite <- Np. replace (fst r, snd r) with r by (now destruct r). rewrite H5. eexists. split; [reflexivity|].
  constructor; cbn [gn_heap gn_reg gn_r2r gn_r2d gn_cur gn_start gn_prev gn_groups gn_extra gn_recs gn_sig gn_expected gn_deps]; try assumption; try reflexivity.
  - exists s. exact H5.
  - exists (in_dev i), d. split; [reflexivity|]. split; [exact Ed|]. split; [exact S2|]. apply Forall_app. split; [exact S3|]. constructor; [|constructor].
    unfold last_group. cbn [rg_recs gn_recs]. now destruct rs1.
Qed.

Lemma sinv_first g i d r g' t : in_new i = NO_NEW_DEP -> nth_error devs (in_dev i) = Some d -> snd r = prefix_of i ->
  issue_over w g (lit "R1") (in_over i) (instr_request d i) = (g', Ok (fst r)) -> toJWSString (fst r) (snd r) = Ok t -> t <> [] ->
  exists st', gen_step w id key size multi devs (Gen [g] 0 [] [] (-1) None 0 [] [] [] None None []) i = Ok st' /\ sinv st' g' [(r, d)].
Proof.
  intros Ni Ed Np Ei Et Nt. unfold gen_step. rewrite (item_at_Some _ _ _ Ed). cbn [bind]. unfold new_in_cluster, end_group, end_dep. rewrite Ni.
  cbn [bind gn_sig]. replace (if multi then None else None) with (@None nat) by (now destruct multi). cbn [bind].
  unfold add_receipt. cbn [gn_heap gn_reg gn_r2r gn_r2d gn_cur gn_start gn_prev gn_groups gn_extra gn_recs gn_sig gn_expected gn_deps item_at nth_error bind].
  rewrite Ei. cbn [bind truthy]. fold (prefix_of i). rewrite <- Np, Et. cbn [bind]. eexists. split; [reflexivity|].
  constructor; cbn [gn_heap gn_reg gn_r2r gn_r2d gn_cur gn_start gn_prev gn_groups gn_extra gn_recs gn_sig gn_expected gn_deps]; try reflexivity.
  - exists t. now apply truthy_text.
  - exists (in_dev i), d. split; [reflexivity|]. split; [exact Ed|]. split; [destruct r; reflexivity|]. constructor; [discriminate|constructor].
Qed.

Lemma sinv_loop l : forall st g rs rs' g', sinv st g rs -> makes g l rs' g' ->
  exists st', gen_loop w id key size multi devs st l = Ok st' /\ sinv st' g' (rs ++ rs').
Proof.
  induction l as [|i l IH]; intros st g rs [|[r d] rs'] g' I M; try (destruct M; fail).
  - cbn [makes] in M. subst g'. exists st. rewrite app_nil_r. split; [reflexivity|exact I].
  - destruct M as (Ni & Ed & Np & g1 & Ei & M). destruct (sinv_step st g rs i d r g1 I Ni Ed Np Ei) as (st1 & E1 & I1).
    destruct (IH st1 g1 (rs ++ [(r, d)]) rs' g' I1 M) as (st' & E' & I'). exists st'. split; [cbn [gen_loop]; rewrite E1; exact E'|]. now rewrite <- app_assoc in I'.
Qed.

(** All instructions *)
Lemma loop_makes g l rs g' : makes g l rs g' -> (forall r d rest, rs = (r, d) :: rest -> exists t, toJWSString (fst r) (snd r) = Ok t /\ t <> []) -> l <> [] ->
  exists st, gen_loop w id key size multi devs (Gen [g] 0 [] [] (-1) None 0 [] [] [] None None []) l = Ok st /\ sinv st g' rs.
Proof.
  intros M T N. destruct l as [|i l]; [congruence|]. destruct rs as [|[r d] rs]; [destruct M|]. destruct M as (Ni & Ed & Np & g1 & Ei & M).
  destruct (T r d rs eq_refl) as (t & Et & Nt). destruct (sinv_first g i d r g1 t Ni Ed Np Ei Et Nt) as (st1 & E1 & I1).
  destruct (sinv_loop l st1 g1 [(r, d)] rs g' I1 M) as (st & E & I). exists st. split; [cbn [gen_loop]; rewrite E1; exact E|exact I].
Qed.

(** ** The DEP *)
Variable ks : keystore.
Hypothesis Hp : pem_ok w.

Lemma put_texts gl gs : Forall2 put gl gs ->
  Forall2 (fun (x : rtuple * (option cert * list cert)) (tv : str * verifier) => toJWSString (fst (fst x)) (snd (fst x)) = Ok (fst tv) /\ snd tv = verifier_of ks (fst (snd x)))
    (stamps gl) (dep_texts ks gs).
Proof.
  intros F. induction F as [|g g' gl gs (R & C & _) F IH]; [constructor|]. unfold stamps, dep_texts in *. cbn [flat_map]. apply Forall2_app; [|exact IH].
  rewrite C. clear -R. induction R as [|r t rs ts E R IH]; cbn [map]; constructor; [|exact IH]. cbn [fst snd]. auto.
Qed.

Definition dev_used (rs : list (rtuple * device)) (d : device) : Prop := In d (map snd rs).

Lemma sinv_export st g rs : sinv st g rs ->
  (forall r d, In (r, d) rs -> exists t, toJWSString (fst r) (snd r) = Ok t) -> (forall d, dev_used rs d -> dev_ok w ks multi d) ->
  exists dep gs, gen_end w multi devs st = Ok [dep] /\ dep_doc w dep gs /\ plain_names dep /\ member dep k_continued = None
    /\ trust_rule w ks (occupied gs)
    /\ Forall2 (fun (x : rtuple * device) (tv : str * verifier) => toJWSString (fst (fst x)) (snd (fst x)) = Ok (fst tv) /\ snd tv = verifier_of ks (device_certificate multi (snd x)))
         rs (dep_texts ks gs).
Proof.
  intros [H1 H2 H3 H4 H5 (p & d & Es & Ed & H6 & H7) H8] T D. set (gl := gn_groups st ++ [last_group multi st d]) in *.
  assert (Forall (fun g => exists x, In x rs /\ (rg_cert g, rg_chain g) = stamp_of (snd x)) gl) as St.
  { apply Forall_forall. intros g0 Ig. rewrite Forall_forall in H7. specialize (H7 g0 Ig). destruct (rg_recs g0) as [|r0 l0] eqn:Er; [congruence|].
    assert (In (r0, (rg_cert g0, rg_chain g0)) (stamps gl)) as I0. { unfold stamps. apply in_flat_map. exists g0. split; [exact Ig|]. rewrite Er. now left. }
    rewrite H6 in I0. apply in_map_iff in I0 as (x & Ex & Ix). exists x. split; [exact Ix|]. unfold stamped_rec in Ex. congruence. }
  assert (Forall (made_group w) gl) as Mg.
  { apply Forall_forall. intros g0 Ig. split.
    - apply Forall_forall. intros r0 Ir. assert (In (r0, (rg_cert g0, rg_chain g0)) (stamps gl)) as I0.
      { unfold stamps. apply in_flat_map. exists g0. split; [exact Ig|]. now apply (in_map (fun r => (r, (rg_cert g0, rg_chain g0)))). }
      rewrite H6 in I0. apply in_map_iff in I0 as ([r1 d1] & Ex & Ix). unfold stamped_rec in Ex. cbn [fst snd] in Ex. injection Ex as <- _ _. exact (T r1 d1 Ix).
    - rewrite Forall_forall in St. destruct (St g0 Ig) as ([r1 d1] & Ix & Ex). unfold stamp_of in Ex. cbn [snd] in Ex. injection Ex as -> ->.
      unfold device_certificate. destruct multi eqn:Em; [|intros c [X|[]]; discriminate X]. apply (D d1); [|reflexivity]. unfold dev_used. now apply (in_map snd _ (r1, d1)). }
  assert (extra_ok (all_extra st)) as X. { apply all_extra_ok. rewrite H4. constructor. }
  destruct (export_made w gl (all_extra st) Hp Mg X) as (dep & gs & E & Dd & Pu & Pl & _).
  exists dep, gs. split; [|split; [exact Dd|split; [exact Pl|split; [|split]]]].
  - unfold gen_end. rewrite Es, (item_at_Some _ _ _ Ed). cbn [bind]. unfold gl, last_group, device_certificate in E. destruct multi; cbn [bind append_group gn_groups gn_deps].
    + change (all_extra (append_group st (dv_cert d) (dv_chain d))) with (all_extra st). rewrite E, H3. reflexivity.
    + change (all_extra (append_group st None [])) with (all_extra st). rewrite E, H3. reflexivity.
  - unfold export in E. apply bind_Ok in E as (js & _ & E). cbn [snd] in E. apply Ok_inj in E. subst dep. unfold all_extra. rewrite H4.
    destruct (number (gn_expected st)); cbn [app]; unfold with_extra; cbn [fold_left fst snd]; reflexivity.
  - assert (occupied gs = gs) as Eo.
    { clear -H7 Pu. induction Pu as [|g0 g1 gl gs (R & _) Pu IH]; [reflexivity|]. apply Forall_cons_iff in H7 as [N H7]. unfold occupied in *. cbn [filter].
      rewrite (IH H7). inversion R as [E1 E2|? ? ? ? ? ? E1 E2]; [congruence|]. reflexivity. }
    rewrite Eo. destruct multi eqn:Em.
    + left. clear -St Pu D Em. induction Pu as [|g0 g1 gl gs (_ & C1 & C2) Pu IH]; [constructor|]. apply Forall_cons_iff in St as [([r1 d1] & Ix & Ex) St].
      constructor; [|exact (IH St)]. unfold stamp_of in Ex. cbn [snd device_certificate] in Ex. injection Ex as Ec Eh. rewrite C1, C2, Ec, Eh, Em. unfold device_certificate.
      apply (D d1); [|reflexivity]. unfold dev_used. now apply (in_map snd _ (r1, d1)).
    + right. unfold gl in Pu. rewrite (H8 eq_refl) in Pu. inversion Pu as [|? g1 ? ? (_ & C1 & _) Pu']; subst. inversion Pu'; subst. exists g1. split; [reflexivity|]. rewrite C1. reflexivity.
  - pose proof (put_texts gl gs Pu) as F. rewrite H6 in F. revert F. generalize (dep_texts ks gs). clear. induction rs as [|x rs IH]; intros l F; inversion F; subst; constructor; auto.
Qed.
End over.

(** ** The last receipt is faulty *)
Lemma makes_all w ks multi devs l : forall lq g recs g', Forall2 (asked ks multi devs) l lq -> Forall (fun i => in_new i = NO_NEW_DEP) l ->
  issue_all w g (map fst lq) = (g', Ok recs) ->
  exists rs, makes w devs g l rs g' /\ recs = map fst rs
    /\ map snd lq = map (fun x => verifier_of ks (device_certificate multi (snd x))) rs
    /\ Forall (fun d => exists i, In i l /\ nth_error devs (in_dev i) = Some d) (map snd rs).
Proof.
  induction l as [|i l IH]; intros lq g recs g' F N E; inversion F as [|? [q v] ? lq' (d & Ed & As & Ev) F']; subst.
  - cbn [map issue_all] in E. injection E as -> <-. exists []. repeat split. constructor.
  - cbn [map fst snd issue_all] in *. apply Forall_cons_iff in N as [N1 N]. pose proof (asks_plain _ _ _ As) as No. apply asks_request in As. subst q v.
    destruct (issue w g (lit "R1") (instr_request d i)) as [g1 [r|x]] eqn:Ei; [|discriminate E].
    destruct (issue_all w g1 (map fst lq')) as [g2 [recs'|x]] eqn:Er; [|discriminate E]. cbn [bind] in E. injection E as -> <-.
    destruct (IH lq' g1 recs' g' F' N Er) as (rs & M & -> & Ev & Fd). exists (((r, lit "R1"), d) :: rs). split; [|split; [reflexivity|split]].
    + cbn [makes]. split; [exact N1|]. split; [exact Ed|]. unfold prefix_of. rewrite No. split; [reflexivity|]. exists g1. split; [cbn [fst]; now rewrite issue_none|exact M].
    + cbn [map fst snd]. now rewrite Ev.
    + cbn [map snd]. constructor; [exists i; split; [now left|exact Ed]|]. eapply Forall_impl; [|exact Fd]. intros d' (i' & I & E). exists i'. split; [now right|exact E].
Qed.

Local Lemma Forall2_length {A B} (P : A -> B -> Prop) a b : Forall2 P a b -> List.length a = List.length b.
Proof. exact (Forall2_len P a b). Qed.

Lemma injected_prefix w b key g l q v r o e : injected w b key g l q v r o e -> ov_prefix o = None.
Proof. intros J. destruct J; reflexivity. Qed.

Lemma injected_class w b key g l q v r o e : injected w b key g l q v r o e -> classes e <> [].
Proof. intros J. destruct J; discriminate. Qed.

(** The texts before the last one are in order. *)
Lemma texts_before w b id k size g0 l q v g recs : hash_ok w -> aes_ok w ->
  identifier id -> List.length k = 32%nat -> new_cashreg id None 0 k size = Ok g0 -> orderly w size b (l ++ [(q, v)]) ->
  issue_all w g0 (map fst l) = (g, Ok recs) ->
  exists texts items, mapM (fun r : rtuple => toJWSString (fst r) (snd r)) recs = Ok texts
    /\ Forall2 (text_item w) (combine texts (map snd l)) items /\ valid_sequence w (Some k) None new_register (used_new b) None items.
Proof.
  intros Hh Ha Id Lk New Or Ei. unfold new_cashreg in New. destruct (negb _) eqn:Sz in New; [|discriminate]. apply Ok_inj in New.
  assert (register_ok g0) as G0. { subst g0. split; [exact Id|]. split; [exact Lk|]. split; [cbn; lia|]. intros s [=]. }
  assert (cr_last g0 = None /\ cr_counter g0 = 0%Z /\ cr_key g0 = k /\ cr_size g0 = size) as (L0 & C0 & K0 & Z0) by (subst g0; auto).
  clear New. destruct (orderly_prefix_ok _ _ _ _ _ Or) as [Ql Qq]. cbn [fst snd] in Qq. pose proof Or as (_ & _ & _ & _ & Co & _). rewrite map_app in Co. cbn [map fst] in Co.
  destruct (issue_all_run w l Hh Ha g0 G0 Ql) as (items & g1 & Ei' & R).
  { intros l1 q0 l2 z E Sd Tz. rewrite C0, Z0. apply (Co l1 q0 (l2 ++ [q]) z); [|exact Sd|exact Tz]. rewrite E, <- app_assoc. reflexivity. }
  rewrite Ei in Ei'. injection Ei' as <- ->. destruct (OverrideCaught.run_ok w l g0 items g G0 R) as (G & Gi & Gk & Gz).
  pose proof (run_counter _ _ _ _ _ R) as (_ & (zl & _ & Tl & Ec) & _). rewrite C0 in Ec.
  assert (exists z, request_total q z) as [t0 T] by apply Qq.
  assert (standard_request q -> counter_fits (cr_size g) (counter_after g q t0)) as Fit.
  { intros Sd. rewrite Gz, Z0. apply (Co (map fst l) q [] _); [reflexivity|exact Sd|].
    unfold counter_after. rewrite (proj1 Sd), Ec. destruct Tl as (cs & F & ->). exists (cs ++ [t0]). split.
    - apply Forall2_app; [exact F|]. constructor; [|constructor]. right. split; [exact (proj1 Sd)|exact T].
    - unfold total. rewrite fold_right_app. cbn [fold_right]. clear. induction cs as [|x cs IH]; cbn [fold_right] in *; lia. }
  destruct (issue_ok w v g q t0 Hh Ha G Qq T Fit) as (jws0 & r0 & E0 & I0).
  pose proof (run_snoc w q v t0 jws0 r0 T l g0 items g R I0) as Rs.
  assert (key_given (Some k) g0) as Kg0. { intros k' E'. injection E' as <-. now symmetry. }
  rewrite <- Z0 in Or. pose proof (run_valid w b (Some k) g0 _ _ _ G0 L0 C0 Kg0 Or Rs) as V. apply valid_app in V as [V1 _].
  assert (exists texts, mapM (fun r : rtuple => toJWSString (fst r) (snd r)) (map (fun i => (i_rec i, lit "R1")) items) = Ok texts) as (texts & Tx).
  { pose proof (run_each _ _ _ _ _ R) as Re. clear -Re.
    induction Re as [|[q1 v1] it l1 items (g2 & z & _ & _ & _ & I) E (ts & IH)]; [exists []; reflexivity|].
    exists (i_jws it :: ts). cbn [map mapM fst snd]. rewrite (is_jws _ _ _ _ _ _ _ I). cbn [bind]. rewrite IH. reflexivity. }
  exists texts, items. split; [exact Tx|]. split; [|exact V1]. apply (run_texts w g0 l items g texts R). exact Tx.
Qed.

(** If verification can only report [e], then this is what both ways report. *)
Theorem last_outcomes w sch random ks b id key size multi devs l lq i q v g0 g recs g' r t e :
  hash_ok w -> aes_ok w -> pem_ok w -> (forall n, isolated (sch n)) ->
  identifier id -> List.length key = 32%nat -> new_cashreg id None 0 key size = Ok g0 ->
  Forall (fun j => in_new j = NO_NEW_DEP) (l ++ [i]) -> Forall2 (asked ks multi devs) l lq -> wanted ks multi devs i (q, v) ->
  orderly w size b (lq ++ [(q, v)]) -> devices_trusted w ks multi devs (l ++ [i]) ->
  issue_all w g0 (map fst lq) = (g, Ok recs) -> issue_over w g (lit "R1") (in_over i) q = (g', Ok r) -> toJWSString r (prefix_of i) = Ok t ->
  encodable t -> t <> [] ->
  (forall texts items, mapM (fun r : rtuple => toJWSString (fst r) (snd r)) recs = Ok texts -> Forall2 (text_item w) (combine texts (map snd lq)) items ->
     valid_sequence w (Some key) None new_register (used_new b) None items ->
     (forall r1, reads w t r1 -> ~ valid_sequence w (Some key) None new_register (used_new b) None (items ++ [Item t r1 v]))
     /\ forall e1 e2, both_right w (Some key) None new_register (used_new b) None items t v e1 e2 -> e1 = e /\ e2 = e) ->
  exists dep, runTest w id key size multi devs (l ++ [i]) = Ok [dep]
    /\ testVerify w ks key b [dep] = T_raised e
    /\ parse_deps w sch random ks (Some key) (new_cluster b) [] 0 [dep] = T_raised e.
Proof.
  intros Hh Ha Hp Iso Id Lk New Nn As (d & Ed & Wa & Ev) Or Dt Ea Eo Et Ent Nt Hlast. cbn [fst snd] in *. apply wants_request in Wa.
  apply Forall_app in Nn as [Nl Ni]. apply Forall_inv in Ni.
  destruct (makes_all w ks multi devs l lq g0 recs g As Nl Ea) as (rs & M & Er & Eq & Fd).
  assert (makes w devs g0 (l ++ [i]) (rs ++ [((r, prefix_of i), d)]) g') as M2.
  { apply (makes_app w devs l [i] rs [((r, prefix_of i), d)] g0 g g' M). cbn [makes]. split; [exact Ni|]. split; [exact Ed|]. split; [reflexivity|].
    exists g'. split; [cbn [fst]; now rewrite <- Wa|reflexivity]. }
  destruct (texts_before w b id key size g0 lq q v g recs Hh Ha Id Lk New Or Ea) as (texts & items & Tx & FI & V1). destruct (Hlast texts items Tx FI V1) as [Bad Right].
  assert (Forall2 (fun (x : rtuple * device) s => toJWSString (fst (fst x)) (snd (fst x)) = Ok s) (rs ++ [((r, prefix_of i), d)]) (texts ++ [t])) as Tt.
  { apply Forall2_app; [|constructor; [exact Et|constructor]]. subst recs. clear -Tx. revert texts Tx. induction rs as [|[[r p] d] rs IH]; intros texts Tx; cbn [map mapM fst snd] in Tx.
    - apply Ok_inj in Tx. subst. constructor.
    - apply bind_Ok in Tx as (s & E & (ts & E' & Tx)%bind_Ok). apply Ok_inj in Tx. subst texts. constructor; [exact E|exact (IH _ E')]. }
  assert (Forall (fun s => encodable s /\ s <> []) (texts ++ [t])) as Rd.
  { apply Forall_app. split; [|constructor; [now split|constructor]].
    assert (List.length texts = List.length (map snd lq)) as Ll.
    { rewrite Eq, map_length. apply Forall2_length in Tt. rewrite !app_length in Tt. cbn [List.length] in Tt. lia. }
    clear -FI Ll. revert items FI Ll. generalize (map snd lq). induction texts as [|s texts IH]; intros vs items FI Ll; [constructor|]. destruct vs as [|v vs]; [discriminate Ll|].
    cbn [combine] in FI. inversion FI as [|? it ? items' (E & R & _) FI']; subst. constructor; [split; [exists s; exact (reads_encodes w s _ R)|exact (VerifyFacts.reads_nonempty w s _ R)]|]. apply (IH vs items' FI'). now injection Ll. }
  assert (forall r0 d0 rest, rs ++ [((r, prefix_of i), d)] = (r0, d0) :: rest -> exists s, toJWSString (fst r0) (snd r0) = Ok s /\ s <> []) as Ts.
  { intros r0 d0 rest E. rewrite E in Tt. inversion Tt as [|? s ? ss Es Tt' E1 E2]; subst. exists s. split; [exact Es|]. rewrite <- E2 in Rd. exact (proj2 (Forall_inv Rd)). }
  destruct (loop_makes w id key size multi devs g0 (l ++ [i]) (rs ++ [((r, prefix_of i), d)]) g' M2 Ts ltac:(now destruct l)) as (st & El & I).
  destruct (sinv_export w multi devs ks Hp st g' (rs ++ [((r, prefix_of i), d)]) I) as (dep & gs & Ee & Dd & Pl & Mc & Tr & Ft2).
  { intros r0 d0 I0. apply In_nth_error in I0 as (k & Ek). clear -Tt Ek. revert k Ek. induction Tt as [|x s xs ss E Tt IH]; intros [|k] Ek; cbn [nth_error] in Ek; try discriminate Ek.
    - injection Ek as ->. exists s. exact E.
    - exact (IH k Ek). }
  { intros d0 U Em. unfold dev_used in U. rewrite map_app in U. cbn [map snd] in U. apply in_app_or in U as [U|[<-|[]]].
    - rewrite Forall_forall in Fd. destruct (Fd d0 U) as (j & Ij & Ej). apply (Dt Em j d0); [|exact Ej]. apply in_or_app. now left.
    - apply (Dt Em i d); [|exact Ed]. apply in_or_app. right. now left. }
  assert (dep_texts ks gs = combine texts (map snd lq) ++ [(t, v)]) as ET.
  { rewrite Eq. assert (forall x tv, (toJWSString (fst (fst x)) (snd (fst x)) = Ok (fst tv) /\ snd tv = verifier_of ks (device_certificate multi (snd x))) ->
      forall s, toJWSString (fst (fst x : rtuple)) (snd (fst x)) = Ok s -> tv = (s, verifier_of ks (device_certificate multi (snd x : device)))) as U.
    { intros x [s' v'] (A & B) s Es. cbn [fst snd] in *. rewrite A in Es. apply Ok_inj in Es. congruence. }
    revert Tt Ft2. generalize (dep_texts ks gs). clear -U Ev. revert texts. induction rs as [|x rs IH]; intros [|s texts] dt Tt F; cbn [app] in *.
    - inversion F as [|? tv ? ? Hx F']; subst. inversion F'; subst. inversion Tt as [|? ? ? ? Es _]; subst. rewrite (U _ _ Hx _ Es). reflexivity.
    - inversion Tt as [|? ? ? ? _ Tt']; subst. exfalso. apply Forall2_length in Tt'. rewrite app_length in Tt'. cbn [List.length] in Tt'. lia.
    - inversion Tt as [|? ? ? ? _ Tt']; subst. exfalso. apply Forall2_length in Tt'. rewrite app_length in Tt'. cbn [List.length] in Tt'. lia.
    - inversion F as [|? tv ? dt' Hx F']; subst. inversion Tt as [|? ? ? ? Es Tt']; subst. cbn [map combine app]. rewrite (U _ _ Hx _ Es). f_equal. exact (IH _ _ Tt' F'). }
  assert (texts_encodable ks gs) as TE.
  { unfold texts_encodable. rewrite ET. apply Forall_forall. intros tv It. assert (In (fst tv) (texts ++ [t])) as It'.
    { apply in_app_or in It as [It|[<-|[]]]; apply in_or_app; [left|right; now left]. destruct tv as [s u]. now apply in_combine_l in It. }
    rewrite Forall_forall in Rd. exact (proj1 (Rd _ It')). }
  pose proof (doc_is w dep gs Dd) as Di.
  assert (selects (new_cluster b) (Some 0%Z) [] new_register []) as Sel by (apply (sel_new (new_cluster b)); [now right|now left]).
  exists dep. split; [|split].
  - unfold runTest. rewrite New. cbn [bind]. rewrite El. cbn [bind]. exact Ee.
  - destruct (both_dict w (sch 0%nat) ks (Some key) (new_cluster b) (Some 0%Z) [] new_register [] None gs (combine texts (map snd lq)) items t v Hh (Iso 0%nat)) with (dep := dep) (nparts := 1%nat) (n := 1%nat)
      as (c' & e1 & e2 & E1 & _ & Rg); try assumption; [apply new_usual|now left|exists None; now left|].
    destruct (Right _ _ Rg) as [-> _]. unfold testVerify. cbn [verify_deps]. unfold dep_register. rewrite Mc. cbv beta iota. match goal with |- context [verifyDEP w dep ks ?k ?c ?n] => assert (verifyDEP w dep ks k c n = (c', Some e)) as -> by exact E1 end. reflexivity.
  - cbn [parse_deps]. unfold dep_register. rewrite Mc. cbv beta iota. unfold verify_parsed. cbn [List.length].
    destruct (getCashRegisterInfo (new_cluster b) (Some (Z.of_nat 0))) as [c1 x1] eqn:G. pose proof G as G'. change (Z.of_nat 0) with 0%Z in G'. rewrite (get_selects _ _ _ _ _ Sel) in G'. injection G' as _ <-.
    destruct (tuples_encodable ks gs TE) as (dgs & Eg).
    destruct (number_of_receipts dep =? 0)%nat eqn:Nr. { apply Nat.eqb_eq in Nr. exfalso. exact (receipts_counted w dep gs dgs Dd Eg (last_filled _ _ _ _ _ _ Eg ET) Nr). }
    set (n := Nat.max 2 (random 0%nat)).
    destruct (both_file w (sch 0%nat) ks (Some key) (new_cluster b) (Some 0%Z) [] new_register [] None gs (combine texts (map snd lq)) items t v Hh (Iso 0%nat)) with (doc := dep) (n := n)
      as (c' & e1 & e2 & _ & E2 & Rg); try assumption; [apply new_usual|now left|exists None; now left|].
    destruct (Right _ _ Rg) as [_ ->].
    assert (verifyParsedDEP w (sch 0%nat) (parse_inc w P_file dep n) ks (Some key) c1 (Some (Z.of_nat 0)) = (c', Some e)) as ->; [|reflexivity].
    rewrite <- E2. unfold verifyParsedDEP. symmetry. exact (proj1 (selected_first _ _ _ _ _ G)).
Qed.

Theorem faulty_outcomes w sch random ks b id key size multi devs l lq i q v g0 g recs g' r t e :
  hash_ok w -> aes_ok w -> pem_ok w -> (forall n, isolated (sch n)) ->
  identifier id -> List.length key = 32%nat -> new_cashreg id None 0 key size = Ok g0 ->
  Forall (fun j => in_new j = NO_NEW_DEP) (l ++ [i]) -> Forall2 (asked ks multi devs) l lq -> wanted ks multi devs i (q, v) ->
  orderly w size b (lq ++ [(q, v)]) -> devices_trusted w ks multi devs (l ++ [i]) ->
  issue_all w g0 (map fst lq) = (g, Ok recs) -> issue_over w g (lit "R1") (in_over i) q = (g', Ok r) -> toJWSString r (lit "R1") = Ok t ->
  injected w b (Some key) g (map fst lq) q v r (in_over i) e ->
  exists dep, runTest w id key size multi devs (l ++ [i]) = Ok [dep]
    /\ testVerify w ks key b [dep] = T_raised e
    /\ parse_deps w sch random ks (Some key) (new_cluster b) [] 0 [dep] = T_raised e.
Proof.
  intros Hh Ha Hp Iso Id Lk New Nn As Wa Or Dt Ea Eo Et J. assert (prefix_of i = lit "R1") as Px by (unfold prefix_of; now rewrite (injected_prefix _ _ _ _ _ _ _ _ _ _ J)).
  assert (proper v) as Pv by (destruct Wa as (d & _ & _ & Ev); cbn [snd] in Ev; rewrite Ev; apply verifier_proper).
  destruct (texts_before w b id key size g0 lq q v g recs Hh Ha Id Lk New Or Ea) as (texts & items & Tx & FI & V1).
  destruct (injected_place w b (Some key) id key size g0 lq q v (in_over i) g recs texts g' r t e Hh Ha Id Lk New (or_intror eq_refl) Or Ea Tx Eo Et J Pv)
    as (items' & rr & FI' & _ & Rr & Ft & Fu). rewrite (items_fun w _ _ _ FI' FI) in *. clear items' FI'.
  apply (last_outcomes w sch random ks b id key size multi devs l lq i q v g0 g recs g' r t e Hh Ha Hp Iso Id Lk New Nn As Wa Or Dt Ea Eo).
  - now rewrite Px.
  - exists t. exact (reads_encodes w _ _ Rr).
  - exact (VerifyFacts.reads_nonempty w t _ Rr).
  - intros texts' items' Tx' FI' _. rewrite Tx in Tx'. apply Ok_inj in Tx'. subst texts'. rewrite (items_fun w _ _ _ FI' FI) in *. clear items' FI'. split.
    + intros r1 R1 H. rewrite (reads_fun _ _ _ _ R1 Rr) in H. apply valid_app in H as [_ H]. apply valid_cons in H as [H _]. revert H.
      exact (fault_wrong w (Some key) None _ _ _ (Item t rr v) e Pv Rr Ft).
    + intros e1 e2 [(U & _)|(r1 & reg1 & R1 & RA & F1 & F2)]; [destruct (fault_unread _ _ _ _ U Rr)|].
      apply (register_after_iff w (Some key) None new_register (used_new b) None items reg1 V1) in RA. change (reg1 = after (Some key) new_register None items) in RA. subst reg1.
      rewrite (reads_fun _ _ _ _ R1 Rr) in F1, F2. split; [exact (Fu _ F1)|exact (Fu _ F2)].
Qed.

Theorem faulty_test w say sch random x ks b id key size multi devs l lq i q v g0 g recs g' r t e :
  hash_ok w -> aes_ok w -> pem_ok w -> (forall n, isolated (sch n)) ->
  identifier id -> List.length key = 32%nat -> new_cashreg id None 0 key size = Ok g0 ->
  Forall (fun j => in_new j = NO_NEW_DEP) (l ++ [i]) -> Forall2 (asked ks multi devs) l lq -> wanted ks multi devs i (q, v) ->
  orderly w size b (lq ++ [(q, v)]) -> devices_trusted w ks multi devs (l ++ [i]) ->
  issue_all w g0 (map fst lq) = (g, Ok recs) -> issue_over w g (lit "R1") (in_over i) q = (g', Ok r) -> toJWSString r (lit "R1") = Ok t ->
  injected w b (Some key) g (map fst lq) q v r (in_over i) e ->
  test_spec w say sch random x ks id key size multi devs b (l ++ [i]) = Ok (R_OK, None) <-> expects say x (Some e).
Proof.
  intros Hh Ha Hp Iso Id Lk New Nn As Wa Or Dt Ea Eo Et J.
  destruct (faulty_outcomes w sch random ks b id key size multi devs l lq i q v g0 g recs g' r t e Hh Ha Hp Iso Id Lk New Nn As Wa Or Dt Ea Eo Et J) as (dep & E1 & E2 & E3).
  rewrite spec_ok. split.
  - intros (_ & deps & E & A & _). rewrite E1 in E. apply Ok_inj in E. subst deps. rewrite E2 in A. destruct A as [(c & X & _)|(e' & X & _ & A)]; [discriminate X|].
    injection X as <-. exact A.
  - intros X. split; [reflexivity|]. exists [dep]. split; [exact E1|]. pose proof (proj1 (classes_verification e) (injected_class _ _ _ _ _ _ _ _ _ _ J)) as Ve.
    split; right; exists e; [rewrite E2|]; auto.
Qed.
