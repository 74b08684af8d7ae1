(** Verification in parts. *)
From Verif Require Import PyBase World Codec PyFloat PyTime Algo Receipt ListFacts CodecFacts CodecFacts2 SpecReceipt ReceiptFacts
  RoundTrip DepBase Json Pem KeyStore VerifyReceipt State DepParser Verify SpecDep SpecCluster VerifyFacts StepFacts
  DepFacts ClusterFacts AcceptFacts SeqFacts DepTheorems.
From Coq Require Import Lia.
Open Scope N_scope.
Open Scope py_scope.

Lemma dep_texts_app ks a b : dep_texts ks (a ++ b) = dep_texts ks a ++ dep_texts ks b.
Proof. unfold dep_texts. apply flat_map_app. Qed.

Lemma cut_texts ks gs gs1 gs2 : cut gs gs1 gs2 -> dep_texts ks gs = dep_texts ks gs1 ++ dep_texts ks gs2.
Proof.
  intros (pre & t1 & t2 & c & ch & post & -> & -> & -> & _). unfold dep_texts. rewrite !flat_map_app.
  cbn [flat_map gr_texts gr_cert]. rewrite map_app, app_nil_r, <- !app_assoc. reflexivity.
Qed.

Lemma occupied_one t ts c ch : occupied [Group (t :: ts) c ch] = [Group (t :: ts) c ch].
Proof. reflexivity. Qed.
Lemma occupied_Forall (P : option cert -> list cert -> Prop) gs :
  Forall (fun g => P (gr_cert g) (gr_chain g)) (occupied gs) <->
  forall g, In g gs -> gr_texts g <> [] -> P (gr_cert g) (gr_chain g).
Proof.
  unfold occupied. rewrite Forall_forall. split.
  - intros H g I N. apply H. apply filter_In. split; [exact I|]. now destruct (gr_texts g).
  - intros H g I. apply filter_In in I as [I N]. apply H; [exact I|]. now destruct (gr_texts g).
Qed.

Lemma trust_single w ks t t' c ch : trust_rule w ks [Group t c ch] <-> trust_rule w ks [Group t' c ch].
Proof.
  assert (forall t t', trust_rule w ks [Group t c ch] -> trust_rule w ks [Group t' c ch]) as H; [|split; apply H].
  clear. intros t t' [H|(g & E & N)].
  - left. apply Forall_cons_iff in H as [H _]. constructor; [exact H|constructor].
  - right. injection E as <-. eexists. split; [reflexivity|exact N].
Qed.

Lemma cut_trust w ks gs gs1 gs2 : cut gs gs1 gs2 -> dep_texts ks gs1 <> [] -> dep_texts ks gs2 <> [] ->
  trust_rule w ks (occupied gs) <-> trust_rule w ks (occupied gs1) /\ trust_rule w ks (occupied gs2).
Proof.
  intros (pre & t1 & t2 & c & ch & post & -> & -> & -> & [A|(-> & ->)]) N1 N2.
  - assert (all_certs (pre ++ [Group t1 c ch])) as A1.
    { unfold all_certs in *. apply Forall_app in A as [A B]. apply Forall_app. split; [exact A|].
      apply Forall_cons_iff in B as [B _]. constructor; [exact B|constructor]. }
    assert (all_certs (Group t2 c ch :: post)) as A2.
    { unfold all_certs in *. apply Forall_app in A as [_ B]. apply Forall_cons_iff in B as [B B']. now constructor. }
    rewrite !trust_all_certs by now apply all_certs_occupied.
    rewrite !(occupied_Forall (fun o chain => exists x, o = Some x /\ trusted w ks x chain)). split.
    + intros H. split; intros g I NE.
      * apply in_app_iff in I as [I|[<-|[]]]; [apply H; [apply in_app_iff; auto|exact NE]|].
        apply (H (Group (t1 ++ t2) c ch)); [apply in_elt|]. cbn [gr_texts] in *. destruct t1; [congruence|discriminate].
      * destruct I as [<-|I]; [|apply H; [apply in_app_iff; cbn; auto|exact NE]].
        apply (H (Group (t1 ++ t2) c ch)); [apply in_elt|]. cbn [gr_texts] in *. destruct t1; [exact NE|discriminate].
    + intros [H1 H2] g I NE. apply in_app_iff in I as [I|[<-|I]].
      * apply H1; [apply in_app_iff; auto|exact NE].
      * cbn [gr_texts gr_cert gr_chain] in *. destruct t1 as [|x t1].
        -- apply (H2 (Group t2 c ch)); [now left|exact NE].
        -- apply (H1 (Group (x :: t1) c ch)); [apply in_app_iff; cbn; auto|discriminate].
      * apply H2; [now right|exact NE].
  - cbn [app] in *. destruct t1 as [|x t1]; [now contradiction N1|]. destruct t2 as [|y t2]; [now contradiction N2|].
    cbn [app]. rewrite !occupied_one.
    rewrite (trust_single w ks (x :: t1 ++ y :: t2) (x :: t1)), (trust_single w ks (y :: t2) (x :: t1)). tauto.
Qed.

Theorem concatenated_cut w ks dep dep1 dep2 gs gs1 gs2 :
  dep_is w dep gs -> dep_is w dep1 gs1 -> dep_is w dep2 gs2 -> cut gs gs1 gs2 ->
  dep_texts ks gs1 <> [] -> dep_texts ks gs2 <> [] -> concatenated w ks dep dep1 dep2.
Proof.
  intros D D1 D2 C N1 N2 items. unfold dep_ok. split.
  - intros (gs' & D' & T & F & NE). rewrite (dep_is_fun _ _ _ _ D' D) in *. clear gs' D'.
    apply (cut_trust w ks _ _ _ C N1 N2) in T as [T1 T2]. rewrite (cut_texts ks _ _ _ C) in F.
    apply Forall2_app_inv_l in F as (l1 & l2 & F1 & F2 & ->). exists l1, l2. split; [reflexivity|].
    split; [exists gs1|exists gs2]; (split; [assumption|]; split; [assumption|]; split; [assumption|]).
    + now apply (Forall2_nonempty _ _ _ F1).
    + now apply (Forall2_nonempty _ _ _ F2).
  - intros (l1 & l2 & -> & (gs1' & D1' & T1 & F1 & M1) & (gs2' & D2' & T2 & F2 & M2)).
    rewrite (dep_is_fun _ _ _ _ D1' D1) in *. rewrite (dep_is_fun _ _ _ _ D2' D2) in *.
    exists gs. split; [exact D|]. split; [now apply (cut_trust w ks _ _ _ C N1 N2)|].
    split; [|destruct l1; [congruence|discriminate]]. rewrite (cut_texts ks _ _ _ C). now apply Forall2_app.
Qed.

(** ** Exceptions *)

Lemma dep_groups_certs w ks key ps l : hash_ok w -> certs_ok w ks l -> forall one reg u, one <> Some true ->
  exists one', dep_groups w ks key ps l one reg u =
    do ru <- verifyGroupsWithVerifiers w (map (vg ks) l) key ps reg u; Ok (one', fst ru, snd ru).
Proof.
  intros HO CO. induction CO as [|g l (c & E & T) F IH]; intros one reg u NO.
  - exists one. reflexivity.
  - cbn [dep_groups map verifyGroupsWithVerifiers vg]. rewrite E. cbn [verifier_of].
    assert (match one with Some true => false | _ => true end = true) as -> by (destruct one as [[|]|]; congruence).
    assert (verifyCert w c (g_chain g) ks = Ok tt) as -> by now apply verifyCert_spec. cbn [bind fst snd].
    destruct (verifyGroup w (g_recs g) (fromCert c) key ps reg u) as [ru|]; [|now exists None]. cbn [bind].
    now apply IH.
Qed.

Lemma dep_body_eq w ks key dep gs dgs ps reg u : hash_ok w ->
  dep_is w dep gs -> Forall2 tuple_for gs dgs -> trust_rule w ks (occupied gs) -> filled dgs <> [] ->
  dep_body w ks key (parse_dict w 1 dep 0) (ps, reg, u) =
  verifyGroupsWithVerifiers w (map (vg ks) (filled dgs)) key ps reg u.
Proof.
  intros HO D T Tr NE.
  assert (parse_dict w 1 dep 0 = (map (fun g => [g]) (filled dgs), None)) as -> by (apply parse_dict_spec; eauto 6).
  unfold dep_body. cbn [fst snd finished]. rewrite dep_chunks_single.
  apply (trust_tuples w ks _ _ (filled_occupied _ _ T)) in Tr as [C|(g & E & N)].
  - destruct (dep_groups_certs w ks key ps _ HO C None reg u) as (one & ->); [discriminate|].
    destruct (verifyGroupsWithVerifiers w _ key ps reg u) as [[a b]|]; reflexivity.
  - rewrite E. cbn [dep_groups map verifyGroupsWithVerifiers vg]. rewrite N. cbn [bind fst snd verifier_of].
    destruct (verifyGroup w (g_recs g) (fromKeyStore ks) key ps reg u) as [[a b]|]; reflexivity.
Qed.

(** Verification of a sequence of receipts from a register's state *)
Definition run (w : world) (key : option bytes) (ps : option str) (reg : regstate) (u : used)
    (l : list (bytes * verifier)) : result (regstate * used) :=
  do po <- parse_last w (s_last reg);
  do s <- vseq w key ps (VState (s_last reg) po reg u) l;
  Ok (close s).

Lemma run_app w key ps reg u l1 l2 :
  run w key ps reg u (l1 ++ l2) = do ru <- run w key ps reg u l1; run w key ps (fst ru) (snd ru) l2.
Proof.
  unfold run. destruct (parse_last w (s_last reg)) as [po|] eqn:P; [|reflexivity]. cbn [bind]. rewrite vseq_app.
  destruct (vseq w key ps (VState (s_last reg) po reg u) l1) as [s|] eqn:V; [|reflexivity]. cbn [bind].
  cbn [close fst snd set_last s_last]. apply vseq_tracked in V; [|exact P]. unfold tracked in V. rewrite V. cbn [bind].
  match goal with |- _ = do s' <- vseq _ _ _ ?x _; _ => change x with (with_last (vs_prev s) s) end.
  rewrite vseq_last. destruct (vseq w key ps s l2) as [s'|]; reflexivity.
Qed.

Lemma encoded_texts ks gs : texts_encodable ks gs -> exists dgs, Forall2 tuple_for gs dgs.
Proof.
  unfold texts_encodable. induction gs as [|g gs IH]; [exists []; constructor|]. unfold dep_texts. cbn [flat_map].
  rewrite Forall_app. intros [H1 H2]. destruct (IH H2) as (dgs & F).
  assert (exists bs, Forall2 (fun t b => utf8_encode t = Ok b) (gr_texts g) bs) as (bs & B).
  { rewrite Forall_map in H1. cbn [fst] in H1. clear -H1. induction H1 as [|t ts (b & E) _ (bs & IH)]; [exists []; constructor|].
    exists (b :: bs). now constructor. }
  exists (DGroup bs (gr_cert g) (gr_chain g) :: dgs). constructor; [|exact F]. split; [exact B|]. split; reflexivity.
Qed.

Lemma encode_fun (ts : list (str * verifier)) : forall bs bs' : list (bytes * verifier),
  Forall2 (fun t b => utf8_encode (fst t) = Ok (fst b) /\ snd t = snd b) ts bs ->
  Forall2 (fun t b => utf8_encode (fst t) = Ok (fst b) /\ snd t = snd b) ts bs' -> bs = bs'.
Proof.
  intros bs bs' F F'. eapply Forall2_fun; [|exact F|exact F']. cbn beta. intros t [b v] [b' v'] (E & V) (E' & V').
  cbn [fst snd] in *. rewrite E in E'. apply Ok_inj in E'. congruence.
Qed.

Lemma verifyDEP_run w dep ks key c idx gs before reg after : hash_ok w ->
  dep_is w dep gs -> texts_encodable ks gs -> trust_rule w ks (occupied gs) -> dep_texts ks gs <> [] ->
  selects c idx before reg after ->
  exists l,
    Forall2 (fun t b => utf8_encode (fst t) = Ok (fst b) /\ snd t = snd b) (dep_texts ks gs) l
    /\ verifyDEP w dep ks key c idx =
       match run w key (start_of_last before) reg (c_used c) l with
       | Ok (reg', u') => (Cluster (before ++ reg' :: after) u', None)
       | Err e => (Cluster (before ++ reg :: after) (c_used c), Some e)
       end.
Proof.
  intros HO D E T NE S. destruct (encoded_texts _ _ E) as (dgs & F). exists (flat (map (vg ks) (filled dgs))).
  assert (filled dgs <> []) as NF.
  { apply (Forall2_nonempty _ _ _ (filled_occupied _ _ F)). now apply (occupied_nonempty ks). }
  split.
  - rewrite <- (dep_texts_occupied ks gs). apply flat_texts. now apply filled_occupied.
  - unfold verifyDEP, with_register. rewrite (get_selects _ _ _ _ _ S). cbn [bind].
    rewrite (dep_body_eq w ks key dep gs dgs) by assumption. rewrite groups_vseq by now destruct (filled dgs).
    fold (run w key (start_of_last before) reg (c_used c) (flat (map (vg ks) (filled dgs)))).
    destruct (run w key (start_of_last before) reg (c_used c) (flat (map (vg ks) (filled dgs)))) as [[r' u']|e];
      cbn [bind fst snd]; [|reflexivity].
    rewrite (update_selects _ _ _ _ _ _ _ _ S). reflexivity.
Qed.

(** If the whole fails then the first part fails with the same exception, or it is
    accepted and the second part fails with the same exception. *)
Theorem parts_error w dep dep1 dep2 gs gs1 gs2 ks key c idx before reg after c' e : hash_ok w ->
  dep_is w dep gs -> dep_is w dep1 gs1 -> dep_is w dep2 gs2 -> cut gs gs1 gs2 ->
  dep_texts ks gs1 <> [] -> dep_texts ks gs2 <> [] ->
  texts_encodable ks gs -> trust_rule w ks (occupied gs) ->
  selects c idx before reg after ->
  verifyDEP w dep ks key c idx = (c', Some e) ->
  verifyDEP w dep1 ks key c idx = (c', Some e)
  \/ exists c1 c2, verifyDEP w dep1 ks key c idx = (c1, None)
       /\ verifyDEP w dep2 ks key c1 (same_register before) = (c2, Some e).
Proof.
  intros HO D D1 D2 C N1 N2 E T Sl H.
  pose proof (cut_texts ks _ _ _ C) as CT.
  assert (texts_encodable ks gs1 /\ texts_encodable ks gs2) as [E1 E2].
  { unfold texts_encodable in *. rewrite CT in E. now apply Forall_app in E. }
  destruct (proj1 (cut_trust w ks _ _ _ C N1 N2) T) as [T1 T2].
  destruct (verifyDEP_run w dep ks key c idx gs before reg after) as (l & F & R); try assumption.
  { rewrite CT. destruct (dep_texts ks gs1); [congruence|discriminate]. }
  destruct (verifyDEP_run w dep1 ks key c idx gs1 before reg after) as (l1 & F1 & R1); try assumption.
  rewrite CT in F. apply Forall2_app_inv_l in F as (m1 & m2 & G1 & G2 & ->).
  rewrite (encode_fun _ _ _ G1 F1) in *. rewrite R in H. rewrite R1. rewrite run_app in H.
  destruct (run w key (start_of_last before) reg (c_used c) l1) as [[r1 u1]|e1] eqn:X; cbn [bind fst snd] in H; [|auto].
  right. eexists _, _. split; [reflexivity|].
  assert (selects (Cluster (before ++ r1 :: after) u1) (same_register before) before r1 after) as S2
    by now apply (selects_again c idx _ reg).
  destruct (verifyDEP_run w dep2 ks key _ _ gs2 before r1 after HO D2 E2 T2 N2 S2) as (l2 & F2 & R2).
  rewrite (encode_fun _ _ _ G2 F2) in *. rewrite R2. cbn [c_used].
  destruct (run w key (start_of_last before) r1 u1 l2) as [[r2 u2]|e2]; [discriminate|].
  injection H as _ <-. reflexivity.
Qed.
