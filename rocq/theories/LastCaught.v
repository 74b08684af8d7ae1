(** A fault of the last receipt of a DEP is reported by both ways of verification. *)
From Coq Require Import Lia.
From Verif Require Import PyBase World Codec PyFloat PyTime Algo Receipt ListFacts CodecFacts SpecReceipt ReceiptFacts
  DepBase Json Pem KeyStore VerifyReceipt State DepParser Verify SpecDep VerifyFacts StepFacts DepFacts SpecCluster ClusterFacts SeqFacts
  AcceptFacts PartsFacts RoundTrip2 StateFacts SpecState CounterFacts CleanFacts UpdateFacts ParFacts SpecChunks ChunkFacts DictFacts ParTheorems SpecDiag DiagFacts CaughtFacts LastFault.
Open Scope N_scope.
Open Scope py_scope.

(** ** The prediction *)

Lemma add_cents_app a b : forall c, add_cents c (a ++ b) = do x <- add_cents c a; add_cents x b.
Proof. induction a as [|r a IH]; intros c; [reflexivity|]. cbn [app add_cents]. destruct (cents r); [apply IH|reflexivity]. Qed.

(** What may be wrong with a receipt regardless of its place *)
Definition faulty (w : world) (key : option bytes) (t : str) (v : verifier) (e : exn) : Prop :=
  fromJWSString w t = Err e \/ exists r, reads w t r /\ forall ps reg u p, fault w key ps reg u p (Item t r v) e.

Lemma decrypt_ok w t r k : reads w t r -> standard r -> List.length k = 32%nat -> exists c, decryptTC w r k = Ok c.
Proof.
  intros R S L. destruct (decryptTC_eq w t r k R) as (_ & _ & D2). destruct (D2 S L) as (ct & _ & D). destruct (reads_ids _ _ _ R) as (a & b & A & B).
  rewrite D. unfold r1_decrypt, r1_iv. rewrite A. cbn [bind]. rewrite B. eexists. reflexivity.
Qed.

Lemma counter_last w key v g0 l0 cr t r c0 c1 e : Forall2 (denotes_item w) g0 l0 -> utf8_decode cr = Ok t -> reads w t r ->
  counter_rule w key c0 l0 ->
  (match truthy key with
   | None => Ok c1
   | Some k => do cr <- last_counter w k (cr :: rev g0) []; add_cents (match fst cr with Some c => c | None => c1 end) (snd cr)
   end) = Err e -> faulty w key t v e.
Proof.
  intros F D R CR H. destruct key as [[|k0 k']|]; cbn [truthy] in H; try discriminate H. set (k := k0 :: k') in *. set (i := Item t r v).
  assert (Forall2 (denotes_item w) (cr :: rev g0) (i :: rev l0)) as F' by (constructor; [split; assumption|now apply Forall2_rev]).
  pose proof (last_counter_tail w k (cr :: rev g0) (i :: rev l0) [] F') as L. change (cancels []) with (@nil receipt) in L. rewrite L in H. clear L.
  cbn [tail_of] in H. destruct (standardb (i_rec i)) eqn:St.
  - apply standardb_standard in St. cbn [i_rec i] in St, H. right. exists r. split; [exact R|]. intros ps reg u p.
    destruct (Nat.eq_dec (List.length k) 32) as [L|L].
    + exfalso. destruct (decrypt_ok w t r k R St L) as (c & E). rewrite E in H. discriminate H.
    + destruct (decryptTC_eq w t r k R) as (_ & D1 & _). rewrite (D1 St L) in H. cbn [bind] in H. injection H as <-.
      apply (f_key w (Some k) ps reg u p (Item t r v) k); [reflexivity|exact (proj1 St)|exact L].
  - assert (~ standard (i_rec i)) as NS by (rewrite <- standardb_standard; congruence).
    pose proof (tail_of_spec (rev l0) [i] ltac:(constructor; [exact NS|constructor])) as T. rewrite rev_involutive in T.
    pose proof (counter_summable w k c0 l0 CR) as S. destruct (CR k eq_refl) as [CA CB].
    assert (forall x tl l1, l1 ++ tl = l0 -> Forall (fun i => ~ standard (i_rec i)) (tl ++ [i]) -> add_cents x (cancels (tl ++ [i])) = Err e -> faulty w (Some k) t v e) as Add.
    { intros x tl l1 El Ns Hx. unfold cancels in Hx. rewrite map_app, filter_app, add_cents_app in Hx. fold (cancels tl) in Hx. apply Forall_app in Ns as [Ns _].
      rewrite add_cents_spec in Hx; [|intros j J; apply S; rewrite <- El; apply in_or_app; now right|exact Ns]. cbn [bind map filter i_rec i] in Hx.
      destruct (cancelb r) eqn:C; cbn [add_cents] in Hx; [|discriminate]. apply cancelb_iff in C. destruct (cents r) as [z|y] eqn:Z; cbn [bind add_cents] in Hx; [discriminate|].
      injection Hx as <-. right. exists r. split; [exact R|]. intros ps reg u p. apply (f_amount w (Some k) ps reg u p (Item t r v)); cbn [i_rec].
      - discriminate.
      - intros T'. exact (not_both _ T' C).
      - intros z. congruence.
      - exact (cents_err r y Z). }
    destruct (tail_of (rev l0) [i]) as [[j|] tl].
    + destruct T as (l1 & E & Sj & Nt). destruct tl as [|x tl0] eqn:Et using rev_ind.
      { apply app_inj_tail in E as [_ <-]. contradiction. }
      rewrite app_comm_cons, app_assoc in E. apply app_inj_tail in E as [E <-].
      destruct (CB l1 j tl0 E Sj) as (z & _ & De). unfold decrypts in De. rewrite De in H. cbn [bind fst snd] in H.
      apply (Add _ tl0 (l1 ++ [j])) in H; [exact H|rewrite E, <- app_assoc; reflexivity|exact Nt].
    + destruct T as (-> & Nt). cbn [bind fst snd] in H. exact (Add _ l0 [] eq_refl Nt H).
Qed.

Lemma update_last w key v reg p g0 l0 cr t c0 e : Forall2 (denotes_item w) g0 l0 -> utf8_decode cr = Ok t -> past_of w reg p ->
  counter_rule w key c0 l0 -> updateFromDEPGroup w reg (g0 ++ [cr]) key = Err e -> faulty w key t v e.
Proof.
  intros F D P CR H. unfold updateFromDEPGroup in H. rewrite rev_app_distr in H. cbn [rev app] in H.
  assert (exists stlj stl, match rev g0 with [] => Ok (s_last reg) | b0 :: _ => do s <- expandDEPReceipt b0; Ok (Some s) end = Ok stlj
    /\ match truthy stlj with None => Ok None | Some s => do rp <- fromJWSString w s; Ok (Some (fst rp)) end = Ok stl
    /\ (forall q, stl = Some q -> exists s, reads w s q)) as (stlj & stl & E1 & E2 & Rq).
  { destruct (rev g0) as [|b1 r1] eqn:Eg.
    - exists (s_last reg), (past_obj p). split; [reflexivity|]. split.
      + assert (parse_last w (s_last reg) = Ok (past_obj p)) as PL by (apply parse_last_past; eauto). exact PL.
      + intros q Eq. destruct p as [[s q0]|]; [|discriminate]. cbn in Eq. apply Some_inj in Eq. subst q0. exists s. apply P.
    - assert (g0 = rev r1 ++ [b1]) as -> by (rewrite <- (rev_involutive g0), Eg; reflexivity).
      apply Forall2_app_inv_l in F as (l1 & lb & F1 & Fb & ->). inversion Fb as [|? i1 ? lt D1 Ft]; subst. inversion Ft; subst.
      exists (Some (i_jws i1)), (Some (i_rec i1)). rewrite (expand_denotes w b1 i1 D1). split; [reflexivity|].
      pose proof D1 as [_ R1]. rewrite truthy_nonempty by (now apply reads_nonempty in R1). rewrite (parse_denotes w b1 i1 D1). split; [reflexivity|].
      intros q Eq. apply Some_inj in Eq. subst. eauto. }
  rewrite E1 in H. cbn [bind] in H. rewrite E2 in H. cbn [bind] in H.
  assert (expandDEPReceipt cr = Ok t) as Ex by now apply expand_iff. rewrite Ex in H. cbn [bind] in H.
  destruct (fromJWSString w t) as [[r alg]|x] eqn:Pt; cbn [bind fst] in H.
  2:{ injection H as <-. left. exact Pt. }
  apply parse_reads in Pt as [_ R].
  assert (exists need, andR (andR (notR (isSignedBroken r)) match stl with None => Ok false | Some _ => notable r end)
            match stl with None => Ok false | Some s => isSignedBroken s end = Ok need) as (need & E3).
  { rewrite (reads_isSignedBroken w _ _ R), (reads_notable w _ _ R). destruct stl as [q|].
    - destruct (Rq q eq_refl) as (s & Rs). rewrite (reads_isSignedBroken w _ _ Rs). destruct (unsignedb r), (notableb r), (unsignedb q); eexists; reflexivity.
    - destruct (unsignedb r); eexists; reflexivity. }
  rewrite E3 in H. cbn [bind] in H.
  assert (exists start, match truthy (s_start reg) with
          | Some _ => Ok (s_start reg)
          | None => do s <- expandDEPReceipt (hd cr (g0 ++ [cr])); Ok (Some s) end = Ok start) as (start & E4).
  { destruct (truthy (s_start reg)); [eauto|]. destruct F as [|b0 j g1 l1 Dj F1]; cbn [app hd]; [rewrite Ex|rewrite (expand_denotes w b0 j Dj)]; eexists; reflexivity. }
  rewrite E4 in H. cbn [bind] in H.
  match type of H with context [bind ?m _] => destruct m as [c|y] eqn:C end; cbn [bind] in H; [discriminate|]. injection H as <-.
  exact (counter_last w key v g0 l0 cr t r c0 (s_counter reg) y F D R CR C).
Qed.

Lemma predict_groups_app w key a b : forall reg, predict_groups w key reg (a ++ b) = do r <- predict_groups w key reg a; predict_groups w key r b.
Proof.
  induction a as [|[g v] a IH]; intros reg; [reflexivity|]. cbn [app predict_groups]. destruct (fromDEPGroup w reg g key); [apply IH|reflexivity].
Qed.

(** ** The verification of groups *)

Lemma step_unreadable w v key ps s cr t x : utf8_decode cr = Ok t -> fromJWSString w t = Err x -> verify_step w v key ps s cr = Err x.
Proof.
  intros D P. unfold verify_step. assert (expandDEPReceipt cr = Ok t) as -> by now apply expand_iff. cbn [bind].
  unfold check_signature, verifyJWS. rewrite P. cbn [bind]. destruct (nonfatal x); reflexivity.
Qed.

Lemma verify_items w key ps reg u p groups items : Forall (fun g => proper (snd g)) groups -> past_of w reg p ->
  Forall2 (item_of w) (flat groups) items -> valid_sequence w key ps reg u p items ->
  verifyGroupsWithVerifiers w groups key ps reg u = Ok (after key reg p items, used_after u items).
Proof.
  intros Pr P F V. destruct groups as [|g gs] eqn:E.
  - cbn in F. inversion F; subst. reflexivity.
  - rewrite <- E in *. apply groups_spec; [rewrite E; discriminate|exact Pr|]. exists p, items. split; [exact P|]. split; [exact F|]. split; [exact V|].
    split; [|reflexivity]. now apply (register_after_iff w key ps reg u p items _ V).
Qed.

Lemma used_after_cons u i l : used_after u (i :: l) = used_after (used_add u (r_receiptId (i_rec i))) l.
Proof. reflexivity. Qed.

Lemma flat_proper groups : Forall (fun g : vgroup => proper (snd g)) groups -> Forall (fun b => proper (snd b)) (flat groups).
Proof.
  intros Pr. unfold flat. induction Pr as [|g l Pg Pr IH]; [constructor|]. cbn [flat_map]. apply Forall_app. split; [|exact IH].
  apply Forall_map. apply Forall_forall. intros x _. exact Pg.
Qed.

Definition found (w : world) (key : option bytes) (ps : option str) (reg : regstate) (u : used) (p : option past)
    (items : list item) (t : str) (v : verifier) (e : exn) : Prop :=
  fromJWSString w t = Err e
  \/ exists r, reads w t r /\ fault w key ps (after key reg p items) (used_after u items) (last_of p items) (Item t r v) e.

Lemma verify_last w key ps reg u p groups lf cr v t items e : Forall (fun g => proper (snd g)) groups -> start_readable w ps -> past_of w reg p ->
  flat groups = lf ++ [(cr, v)] -> Forall2 (item_of w) lf items -> valid_sequence w key ps reg u p items ->
  utf8_decode cr = Ok t -> encodable t ->
  verifyGroupsWithVerifiers w groups key ps reg u = Err e -> found w key ps reg u p items t v e.
Proof.
  intros Pr SR P Ef F V D Et H. rewrite groups_vseq in H by (intros ->; destruct lf; discriminate Ef).
  assert (parse_last w (s_last reg) = Ok (past_obj p)) as PL by (apply parse_last_past; eauto). rewrite PL in H. cbn [bind] in H.
  rewrite Ef, vseq_app in H. pose proof (past_st w reg u p P) as SP. pose proof (flat_proper _ Pr) as Pf. rewrite Ef in Pf. apply Forall_app in Pf as [Pf Pl].
  assert (vseq w key ps (VState (s_last reg) (past_obj p) reg u) lf = Ok (final key (VState (s_last reg) (past_obj p) reg u) p items)) as E1.
  { apply vseq_spec with (p := p); [exact Pf|exact SP|]. exists items. split; [exact F|]. split; [|reflexivity]. cbn [vs_reg vs_used]. now apply loop_valid. }
  rewrite E1 in H. cbn [bind vseq] in H. set (s := final key (VState (s_last reg) (past_obj p) reg u) p items) in *.
  destruct (verify_step w v key ps s cr) as [s'|x] eqn:St; cbn [bind] in H; [discriminate|]. injection H as <-.
  destruct (fromJWSString w t) as [[r alg]|y] eqn:Pt.
  2:{ left. rewrite (step_unreadable w v key ps s cr t y D Pt) in St. injection St as <-. exact Pt. }
  right. apply parse_reads in Pt as [_ R].
  assert (st_past w s (last_of p items)) as SPs.
  { unfold s. clear -F SP. revert SP. generalize (VState (s_last reg) (past_obj p) reg u). revert p. induction F as [|b i lf items (_ & Ri & _) F IH]; intros p s SP; [exact SP|].
    cbn [final last_of]. apply IH. now apply next_st_past. }
  apply (step_diag w key ps v s cr (last_of p items) t x (Forall_inv Pl) SPs SR D Et) in St as [U|(r' & R' & Fa)]; [destruct (fault_unread _ _ _ _ U R)|].
  exists r'. split; [exact R'|]. unfold s in Fa. rewrite final_spec in Fa. destruct items as [|i0 its] eqn:Ei.
  - exact Fa.
  - rewrite <- Ei in *. cbn [vs_reg vs_used] in Fa. assert (after key reg p items = set_last (regs key reg p items) (option_map fst (last_of p items))) as Ea by (unfold after; now rewrite Ei).
    rewrite Ea. apply fault_last. rewrite Ei in *. exact Fa.
Qed.

(** ** Used IDs *)

Lemma unique_grows l : forall a b, incl a b -> exists a' b', fold_left used_add l (Unique a) = Unique a' /\ fold_left used_add l (Unique b) = Unique b' /\ incl a' b'.
Proof.
  induction l as [|x l IH]; intros a b I; [exists a, b; auto|]. cbn [fold_left used_add].
  destruct (mem x a) eqn:A, (mem x b) eqn:B; apply IH.
  - exact I.
  - intros y Hy. apply in_or_app. left. now apply I.
  - intros y Hy. apply in_app_or in Hy as [Hy|[<-|[]]]; [now apply I|]. now apply mem_In.
  - intros y Hy. apply in_or_app. apply in_app_or in Hy as [Hy|Hy]; [left; now apply I|now right].
Qed.
Lemma natural_last l : l <> [] -> forall mi ma mi' ma', exists m x x', fold_left used_add l (Natural mi ma) = Natural x (Some m) /\ fold_left used_add l (Natural mi' ma') = Natural x' (Some m).
Proof.
  induction l as [|x l IH]; [congruence|]. intros _ mi ma mi' ma'. cbn [fold_left used_add]. destruct l as [|y l]; [cbn [fold_left]; eauto|]. now apply IH.
Qed.

Lemma fault_full w key ps reg u p items i e :
  fault w key ps reg (used_after (fresh_used u) items) p i e -> fault w key ps reg (used_after u items) p i e.
Proof.
  assert ((id_taken w (used_after (fresh_used u) items) (r_receiptId (i_rec i)) -> id_taken w (used_after u items) (r_receiptId (i_rec i)))
          /\ (id_unordered w (used_after (fresh_used u) items) (r_receiptId (i_rec i)) -> id_unordered w (used_after u items) (r_receiptId (i_rec i)))) as [HT HU].
  { unfold used_after, fresh_used. destruct u as [a|mi ma]; cbn [backend_of used_new].
    - destruct (unique_grows (ids items) [] a ltac:(intros x [])) as (a' & b' & -> & -> & I). cbn [id_taken]. split; [apply I|]. intros (? & ? & X & _). discriminate X.
    - destruct (ids items) as [|x l] eqn:E.
      + cbn [fold_left id_taken]. split; [tauto|]. intros (? & ? & X & _). discriminate X.
      + destruct (natural_last (x :: l) ltac:(discriminate) None None mi ma) as (m & y & y' & -> & ->). cbn [id_taken]. split; [auto|].
        intros (mi0 & m0 & X & H). injection X as -> ->. exists y', m0. auto. }
  destruct 1; [eapply f_serial|eapply f_no_key|eapply f_signature|eapply f_restore|eapply f_start_unsigned|eapply f_start_turnover
    |eapply f_start_type|eapply f_start_open|eapply f_id|eapply f_order|eapply f_register|eapply f_system|eapply f_date
    |eapply f_chain|eapply f_chain_start|eapply f_chain_cluster|eapply f_key|eapply f_amount|eapply f_counter]; eauto.
Qed.

Lemma merge_ids_app w a b : forall u, used_merge_ids w u (a ++ b) = do v <- used_merge_ids w u a; used_merge_ids w v b.
Proof. induction a as [|x a IH]; intros u; [reflexivity|]. cbn [app used_merge_ids]. destruct (used_check w u x); [apply IH|reflexivity]. Qed.
Lemma merge_ids_fresh w l : forall u, fresh_ids w u true l -> used_merge_ids w u l = Ok (fold_left used_add l u).
Proof.
  induction l as [|x l IH]; intros u F; [reflexivity|]. cbn [used_merge_ids fresh_ids fold_left] in *. destruct F as [C F]. rewrite (C eq_refl). cbn [bind]. now apply IH.
Qed.

Lemma natural_first l : forall m ma, exists y, fold_left used_add l (Natural (Some m) ma) = Natural (Some m) y.
Proof. induction l as [|x l IH]; intros m ma; cbn [fold_left used_add]; eauto. Qed.

(** The IDs of the last package, which are new among themselves, are refused. *)
Lemma merge_last w u l x e : fresh_ids w u true l -> fresh_ids w (fresh_used u) true (l ++ [x]) ->
  used_merge1 w u (fold_left used_add (l ++ [x]) (fresh_used u)) = Err e -> used_check w (fold_left used_add l u) x = Err e.
Proof.
  intros F Fn M. destruct u as [a|mi ma]; unfold fresh_used in *; cbn [backend_of used_new] in *.
  - rewrite (fresh_fold_unique w _ Fn) in M. cbn [used_merge1] in M. rewrite merge_ids_app, (merge_ids_fresh w l _ F) in M. cbn [bind used_merge_ids] in M.
    destruct (used_check w (fold_left used_add l (Unique a)) x); [discriminate|]. cbn [bind] in M. injection M as <-. reflexivity.
  - destruct l as [|y l].
    + cbn [app fold_left used_add used_merge1] in *. destruct (used_check w (Natural mi ma) x); [discriminate|]. cbn [bind] in M. injection M as <-. reflexivity.
    + cbn [app fold_left used_add] in M. destruct (natural_first (l ++ [x]) y (Some y)) as (z & E).
      assert (exists m, z = Some m) as [m ->].
      { destruct (natural_last (l ++ [x]) ltac:(now destruct l) (Some y) (Some y) None None) as (m & ? & ? & E2 & _). rewrite E in E2. injection E2 as _ ->. eauto. }
      rewrite E in M. cbn [used_merge1] in M. cbn [fresh_ids] in F. destruct F as [C _]. rewrite (C eq_refl) in M. discriminate M.
Qed.

(** ** The last package *)

Lemma effective_app w ps reg p l q : past_of w reg p -> effective_past w ps (last_of p l) q -> q = None -> l = [] /\ absent (s_last reg) /\ absent ps.
Proof.
  intros P E ->. destruct l as [|i l].
  - split; [reflexivity|]. destruct (effective_some w ps reg p None P E) as [X|X]; [discriminate|exact X].
  - exfalso. destruct (last_of p (i :: l)) as [[s r]|] eqn:L; [discriminate E|]. assert (NE : i :: l <> []) by discriminate. destruct (exists_last NE) as (m & j & Em).
    rewrite Em, last_of_app in L. discriminate L.
Qed.

Lemma package_fails w key ps reg u p groups0 g0 cr v t ib ic : Forall (fun g => proper (snd g)) (groups0 ++ [(g0 ++ [cr], v)]) -> start_readable w ps ->
  past_of w reg p -> usual reg -> guarded ps reg u ->
  Forall2 (item_of w) (flat groups0) ib -> Forall2 (item_of w) (map (fun b => (b, v)) g0) ic ->
  valid_sequence w key ps reg u p (ib ++ ic) ->
  utf8_decode cr = Ok t -> encodable t ->
  (forall r, reads w t r -> ~ valid_sequence w key ps reg u p ((ib ++ ic) ++ [Item t r v])) ->
  exists e, pkg_fails w key ps reg u (groups0 ++ [(g0 ++ [cr], v)]) e /\ found w key ps reg u p (ib ++ ic) t v e.
Proof.
  intros Pr SR P U G Fb Fc V D Et Bad. set (pk := groups0 ++ [(g0 ++ [cr], v)]) in *.
  assert (flat pk = (flat groups0 ++ map (fun b => (b, v)) g0) ++ [(cr, v)]) as Ef.
  { unfold pk, flat. rewrite flat_map_app. cbn [flat_map fst snd]. rewrite app_nil_r, map_app, app_assoc. reflexivity. }
  assert (Forall2 (item_of w) (flat groups0 ++ map (fun b => (b, v)) g0) (ib ++ ic)) as Fbc by (apply Forall2_app; assumption).
  pose proof V as Vf. apply (valid_new w key ps reg u p (ib ++ ic) P G) in Vf as [Vf Fr].
  destruct (predict_groups w key reg pk) as [r2|e] eqn:Ep.
  - destruct (verifyGroupsWithVerifiers w pk key ps reg (fresh_used u)) as [[r' n]|e] eqn:Ev.
    + destruct (used_merge1 w u n) as [u'|e] eqn:M.
      * exfalso. assert (verifyGroupsWithVerifiers w pk key ps reg u = Ok (r', u')) as Ok' by (apply verify_used; eauto).
        apply groups_spec in Ok' as (p' & items & P' & F' & V' & _); [|unfold pk; now destruct groups0|exact Pr].
        rewrite (past_of_fun _ _ _ _ P' P) in *. rewrite Ef in F'. apply Forall2_app_inv_l in F' as (l1 & l2 & F1 & F2 & ->).
        inversion F2 as [|? i ? ? (A & R & B) F3]; subst. inversion F3; subst. cbn [fst snd] in *.
        assert (l1 = ib ++ ic) as ->.
        { clear -F1 Fbc. revert l1 F1. induction Fbc as [|b i bs l (E & R & W) F IH]; intros l1 F1; inversion F1 as [|? i1 ? ? (E1 & R1 & W1) F1']; subst; [reflexivity|].
          f_equal; [|now apply IH]. rewrite E in E1. apply Ok_inj in E1. destruct i as [s r x], i1 as [s1 r1 x1]. cbn [i_jws i_rec i_ver] in *. subst. f_equal. exact (reads_fun _ _ _ _ R1 R). }
        rewrite D in A. apply Ok_inj in A. destruct i as [s r x]. cbn [i_jws i_rec i_ver] in *. subst s x. exact (Bad r R V').
      * exists e. split; [right; split; [eauto|]; right; eauto|].
        apply groups_spec in Ev as (p' & items & P' & F' & V' & _ & ->); [|unfold pk; now destruct groups0|exact Pr].
        rewrite (past_of_fun _ _ _ _ P' P) in *. rewrite Ef in F'. apply Forall2_app_inv_l in F' as (l1 & l2 & F1 & F2 & ->).
        inversion F2 as [|? i ? ? (A & R & B) F3]; subst. inversion F3; subst. cbn [fst snd] in *.
        assert (l1 = ib ++ ic) as ->.
        { clear -F1 Fbc. revert l1 F1. induction Fbc as [|b i bs l (E & R & W) F IH]; intros l1 F1; inversion F1 as [|? i1 ? ? (E1 & R1 & W1) F1']; subst; [reflexivity|].
          f_equal; [|now apply IH]. rewrite E in E1. apply Ok_inj in E1. destruct i as [s r x], i1 as [s1 r1 x1]. cbn [i_jws i_rec i_ver] in *. subst. f_equal. exact (reads_fun _ _ _ _ R1 R). }
        rewrite D in A. apply Ok_inj in A. destruct i as [s r x]. cbn [i_jws i_rec i_ver] in *. subst s x.
        right. exists r. split; [exact R|]. destruct V' as (_ & _ & _ & _ & V'). destruct (V' ltac:(now destruct (ib ++ ic))) as (q & Q & _ & _ & Fq).
        unfold used_after, ids in M. rewrite map_app in M. cbn [map i_rec] in M.
        unfold ids in Fq. rewrite map_app in Fq. cbn [map i_rec] in Fq.
        assert (fresh_ids w (fresh_used u) true (map (fun i => r_receiptId (i_rec i)) (ib ++ ic) ++ [r_receiptId r])) as Fn.
        { unfold fresh_used in *. now apply fresh_new in Fq. }
        apply (merge_last w u _ _ e Fr Fn) in M.
        assert (exists q0, effective_past w ps (last_of p (ib ++ ic)) (Some q0)) as [q0 Q0].
        { destruct SR as (q1 & Q1). destruct (last_of p (ib ++ ic)) as [[a b]|] eqn:Lp; [exists (a, b); reflexivity|].
          destruct q1 as [q1|]; [exists q1; exact Q1|]. exfalso.
          destruct (effective_app w ps reg p (ib ++ ic) None P) as (El & A1 & A2); [rewrite Lp; exact Q1|reflexivity|].
          rewrite El in M. cbn [map fold_left] in M. rewrite (G A1 A2) in M. destruct u; discriminate M. }
        fold (ids (ib ++ ic)) in M. fold (used_after u (ib ++ ic)) in M. apply used_check_diag in M as [(T & ->)|(T & Ee)].
        -- exact (f_id w key ps _ _ _ (Item t r v) q0 Q0 T).
        -- exact (f_order w key ps _ _ _ (Item t r v) q0 e Q0 T Ee).
    + exists e. split; [right; split; [eauto|now left]|].
      apply (verify_last w key ps reg (fresh_used u) p pk _ cr v t (ib ++ ic) e Pr SR P Ef Fbc Vf D Et) in Ev as [X|(r & R & Fa)]; [now left|right].
      exists r. split; [exact R|]. now apply fault_full.
  - exists e. split; [now left|]. unfold pk in Ep. rewrite predict_groups_app in Ep. apply valid_app in V as [Vb Vc].
    apply Forall_app in Pr as [Pr0 _]. pose proof (verify_items w key ps reg u p groups0 ib Pr0 P Fb Vb) as V0.
    destruct (predict_faithful _ _ _ _ _ _ _ _ Pr0 U V0) as [E0 U0]. rewrite E0 in Ep. cbn [bind predict_groups] in Ep. unfold fromDEPGroup in Ep.
    destruct (updateFromDEPGroup w (after key reg p ib) (g0 ++ [cr]) key) as [r3|x] eqn:Eu; cbn [bind] in Ep; [discriminate|]. injection Ep as <-.
    assert (Forall (fun i => reads w (i_jws i) (i_rec i)) ib) as Rb by exact (item_reads _ _ _ Fb).
    pose proof (past_after w key reg p ib P Rb) as Pa. destruct Vc as (_ & _ & _ & CR & _).
    destruct (update_last w key v _ _ g0 ic cr t _ x (item_denotes _ _ _ _ Fc) D Pa CR Eu) as [X|(r & R & Fa)]; [now left|right].
    exists r. split; [exact R|apply Fa].
Qed.

(** ** Chunks *)

Lemma flat_texts ks gs dgs : Forall2 encoded gs dgs ->
  Forall2 (fun (t : str * verifier) b => utf8_encode (fst t) = Ok (fst b) /\ snd t = snd b) (dep_texts ks gs) (flat (map (vg ks) dgs)).
Proof.
  intros E. unfold dep_texts, flat. induction E as [|g dg gs dgs (A & B & _) E IH]; [constructor|]. cbn [flat_map map]. apply Forall2_app; [|exact IH].
  unfold vg. cbn [fst snd]. rewrite B. clear -A. induction A as [|t b ts bs H A IH]; [constructor|]. cbn [map]. constructor; [split; [exact H|reflexivity]|exact IH].
Qed.

Lemma flat_filled ks dgs : flat (map (vg ks) (filled dgs)) = flat (map (vg ks) dgs).
Proof. rewrite !flat_stamped. now rewrite <- (stamped_filter dgs). Qed.

Lemma encoded_items w ts bs items : Forall2 (fun (t : str * verifier) b => utf8_encode (fst t) = Ok (fst b) /\ snd t = snd b) ts bs ->
  Forall2 (text_item w) ts items -> Forall2 (item_of w) bs items.
Proof.
  intros E. revert items. induction E as [|t b ts bs (A & B) E IH]; intros items F; inversion F as [|? i ? l (X & Y & Z) F']; subst; constructor; [|now apply IH].
  split; [rewrite X; now apply utf8_decode_encode|]. split; [now rewrite X|congruence].
Qed.

Theorem both_report w sch dep gs dgs chunks ks key c idx before reg after' p ts items t v : hash_ok w -> isolated sch -> usual_cluster c ->
  dep_is w dep gs -> Forall2 encoded gs dgs -> faithful dgs chunks ->
  selects c idx before reg after' -> past_of w reg p -> start_readable w (start_of_last before) ->
  trust_rule w ks (occupied gs) -> dep_texts ks gs = ts ++ [(t, v)] -> Forall2 (text_item w) ts items ->
  valid_sequence w key (start_of_last before) reg (c_used c) p items ->
  (forall r, reads w t r -> ~ valid_sequence w key (start_of_last before) reg (c_used c) p (items ++ [Item t r v])) ->
  exists c' e e', verifyDEP w dep ks key c idx = (c', Some e) /\ verifyParsedDEP w sch (chunks, None) ks key c idx = (c', Some e')
    /\ found w key (start_of_last before) reg (c_used c) p items t v e
    /\ found w key (start_of_last before) reg (c_used c) p items t v e'.
Proof.
  intros HO Iso UC DI E Fa Se P SR TR ET FI V Bad. destruct (usual_selected _ _ _ _ _ UC Se) as [U G].
  set (ps := start_of_last before) in *. set (u := c_used c) in *.
  pose proof (flat_texts ks gs dgs E) as FT. rewrite ET in FT. apply Forall2_app_inv_l in FT as (bs & lb & FT & FL & Eb).
  inversion FL as [|? [cr v'] ? ? (Ecr & Ev) FL']; subst. inversion FL'; subst. cbn [fst snd] in Ecr, Ev. subst v'.
  assert (Forall2 (item_of w) bs items) as FB by exact (encoded_items w ts bs items FT FI).
  assert (utf8_decode cr = Ok t) as D by now apply utf8_decode_encode.
  assert (encodable t) as Et by (now exists cr).
  assert (filled dgs <> []) as NF. { intros X. rewrite <- (flat_filled ks dgs), X in Eb. destruct bs; discriminate Eb. }
  assert (chunks <> []) as NC by (eapply faithful_nonempty; eassumption).
  (* sequential *)
  assert (exists e, dep_body w ks key (parse_dict w 1 dep 0) (ps, reg, u) = Err e /\ found w key ps reg u p items t v e) as (e & Es & Fs).
  { pose proof (dep_body_eq w ks key dep gs dgs ps reg u HO DI E TR NF) as DB.
    assert (Forall (fun g : vgroup => proper (snd g)) (map (vg ks) (filled dgs))) as Pr. { apply Forall_map, Forall_forall. intros g _. apply verifier_proper. }
    destruct (verifyGroupsWithVerifiers w (map (vg ks) (filled dgs)) key ps reg u) as [[r' u']|e] eqn:Ev.
    - exfalso. apply groups_spec in Ev as (p' & items' & P' & F' & V' & _); [|destruct (filled dgs); [congruence|discriminate]|exact Pr].
      rewrite (past_of_fun _ _ _ _ P' P) in *. rewrite flat_filled, Eb in F'. apply Forall2_app_inv_l in F' as (l1 & l2 & F1 & F2 & ->).
      inversion F2 as [|? i ? ? (A & R & B) F3]; subst. inversion F3; subst. cbn [fst snd] in *.
      assert (l1 = items) as ->.
      { clear -F1 FB. revert l1 F1. induction FB as [|b i bs l (E & R & W) F IH]; intros l1 F1; inversion F1 as [|? i1 ? ? (E1 & R1 & W1) F1']; subst; [reflexivity|].
        f_equal; [|now apply IH]. rewrite E in E1. apply Ok_inj in E1. destruct i as [s r x], i1 as [s1 r1 x1]. cbn [i_jws i_rec i_ver] in *. subst. f_equal. exact (reads_fun _ _ _ _ R1 R). }
      rewrite D in A. apply Ok_inj in A. destruct i as [s r x]. cbn [i_jws i_rec i_ver] in *. subst s x. exact (Bad r R V').
    - exists e. split; [exact DB|]. apply (verify_last w key ps reg u p (map (vg ks) (filled dgs)) bs cr v t items e Pr SR P); try assumption. now rewrite flat_filled. }
  (* parallel *)
  assert (exists e', par_body w sch ks key (chunks, None) (ps, reg, u) = Err e' /\ found w key ps reg u p items t v e') as (e' & Ep & Fp).
  { destruct (exists_last NC) as (cpre & cl & Ec). pose proof Fa as (St & Fu & NE & _). rewrite Ec in *. apply Forall_app in Fu as [_ Fu]. apply Forall_inv in Fu.
    apply Forall_app in NE as [_ NE]. apply Forall_inv in NE. destruct (exists_last NE) as (cl0 & g & Eg). rewrite Eg in Fu. apply Forall_app in Fu as [_ Fu]. apply Forall_inv in Fu.
    destruct (exists_last Fu) as (g0 & cr' & Er).
    assert (flat (map (vg ks) (concat cpre)) ++ flat (map (vg ks) cl0) ++ map (fun b => (b, verifier_of ks (g_cert g))) g0 ++ [(cr', verifier_of ks (g_cert g))] = bs ++ [(cr, v)]) as Efl.
    { rewrite <- Eb, !flat_stamped, <- St, <- concat_stamped, concat_app. cbn [concat]. rewrite app_nil_r, Eg, !stamped_app, !map_app.
      f_equal. f_equal. rewrite stamped_cons, Er, !map_app, map_map. cbn [map fst snd]. change (stamped []) with (@nil (bytes * (option cert * list cert))). cbn [map]. now rewrite app_nil_r. }
    rewrite !app_assoc in Efl. apply app_inj_tail in Efl as [Ebs Ecv]. injection Ecv as -> Ecv.
    rewrite <- Ebs in FB. apply Forall2_app_inv_l in FB as (iab & ic & FB & Fc & ->). apply Forall2_app_inv_l in FB as (ia & ib & Fia & Fib & ->).
    rewrite <- app_assoc in V. pose proof V as V0. apply valid_app in V0 as [Va Vbc].
    assert (Forall (fun g : vgroup => proper (snd g)) (map (vg ks) (concat cpre))) as Pra. { apply Forall_map, Forall_forall. intros x _. apply verifier_proper. }
    pose proof (verify_items w key ps reg u p (map (vg ks) (concat cpre)) ia Pra P Fia Va) as Vok.
    pose proof (item_reads _ _ _ Fia) as Ra. pose proof (past_after w key reg p ia P Ra) as Pa. pose proof (usual_after w key reg p ia Ra P U) as Ua.
    destruct (guarded_after _ _ _ _ _ _ _ _ Pra G Vok) as [Ga _].
    destruct (package_fails w key ps (after key reg p ia) (used_after u ia) (last_of p ia) (map (vg ks) cl0) g0 cr v t ib ic) as (e' & PF & Fo); try assumption.
    - apply Forall_app. split; [apply Forall_map, Forall_forall; intros x _; apply verifier_proper|]. constructor; [|constructor]. cbn [snd]. rewrite <- Ecv. apply verifier_proper.
    - rewrite <- Ecv. exact Fc.
    - intros r R X. apply (Bad r R). rewrite <- !app_assoc in *. apply valid_app. split; [exact Va|]. exact X.
    - exists e'. split.
      + apply (par_body_last w sch ks key (cpre ++ [cl]) ps reg u (map (map (vg ks)) cpre) (map (vg ks) cl) (after key reg p ia) (used_after u ia) e' Iso U G).
        * apply packages_spec; [exact HO|]. split; [|now rewrite map_app]. rewrite <- Ec in *. eapply trust_chunks; eassumption.
        * rewrite <- concat_map. exact Vok.
        * rewrite Eg, map_app. cbn [map]. unfold vg at 2. rewrite Er, Ecv. exact PF.
      + rewrite <- app_assoc. unfold found in *. rewrite after_app, used_after_app, last_of_app2. exact Fo. }
  unfold verifyDEP, verifyParsedDEP, with_register. destruct (getCashRegisterInfo c idx) as [c' info] eqn:Eg.
  pose proof (get_selects _ _ _ _ _ Se) as GS. rewrite Eg in GS. injection GS as _ Ei. fold ps u in Ei. subst info. exists c', e, e'.
  cbn [bind]. rewrite Es, Ep. cbn [bind]. auto.
Qed.
