(** The DEPs of a test specification: the registers and what is verified. *)
From Coq Require Import Lia ZifyClasses ZifyN ZifyNat ZifyBool.
From Verif Require Import PyBase World ListFacts Codec CodecFacts PyFloat PyTime Algo AlgoFacts Receipt SpecReceipt FieldFacts ReceiptFacts RoundTrip Json Pem KeyStore State
  DepBase DepParser Verify DepExport VerifyReceipt VerifyFacts SpecDep SpecCluster SpecDoc SpecKeys SpecMerge SpecExport SeqFacts StepFacts DepFacts AcceptFacts IncTheorems ExportFacts SplitFacts
  FloatFacts AmountFacts SpecAmount CashReg SpecCashReg CashRegText CashRegFacts CashRegSeq RunTest SpecRunTest ClusterRun.
Open Scope N_scope.
Open Scope py_scope.

Lemma of_register_app {A} r (a b : list (nat * A)) : of_register r (a ++ b) = of_register r a ++ of_register r b.
Proof. unfold of_register. now rewrite filter_app, map_app. Qed.
Lemma of_register_same {A} r (x : A) : of_register r [(r, x)] = [x].
Proof. unfold of_register. cbn [filter fst]. now rewrite Nat.eqb_refl. Qed.
Lemma of_register_other {A} r o (x : A) : o <> r -> of_register r [(o, x)] = [].
Proof. intros N. unfold of_register. cbn [filter fst]. apply Nat.eqb_neq in N. now rewrite N. Qed.
Lemma of_register_pairs {A} o (l : list A) : of_register o (map (pair o) l) = l.
Proof. induction l as [|x l IH]; [reflexivity|]. cbn [map]. change ((o, x) :: map (pair o) l) with ([(o, x)] ++ map (pair o) l).
  rewrite of_register_app, of_register_same, IH. reflexivity. Qed.
Lemma of_register_not {A} r o (l : list A) : o <> r -> of_register r (map (pair o) l) = [].
Proof. intros N. induction l as [|x l IH]; [reflexivity|]. cbn [map]. change ((o, x) :: map (pair o) l) with ([(o, x)] ++ map (pair o) l).
  rewrite of_register_app, of_register_other, IH by exact N. reflexivity. Qed.
Lemma of_register_In {A} r (x : A) l : In (r, x) l -> In x (of_register r l).
Proof. intros I. unfold of_register. apply in_map_iff. exists (r, x). split; [reflexivity|]. apply filter_In. split; [exact I|]. apply Nat.eqb_refl. Qed.
Lemma of_register_above {A} r (l : list (nat * A)) m : Forall (fun x => (fst x < m)%nat) l -> (m <= r)%nat -> of_register r l = [].
Proof.
  intros F L. induction F as [|[o x] l H F IH]; [reflexivity|]. change ((o, x) :: l) with ([(o, x)] ++ l). cbn [fst] in H.
  rewrite of_register_app, of_register_other, IH by lia. reflexivity.
Qed.

(** Elements of a DEP *)
Definition head_extra (z : option (Z * bool)) : list (str * json) :=
  match z with
  | None => []
  | Some (z, false) => [(k_previous, JInt z)]
  | Some (z, true) => [(k_previous, JInt z); (k_continued, JBool true)]
  end.
Definition total_extra (o : option float) : list (str * json) :=
  match number o with Some x => [(k_total, JFloat x)] | None => [] end.

Lemma extras_ok z o : extra_ok (head_extra z ++ total_extra o).
Proof.
  assert (forall k : str, In k [k_previous; k_continued; k_total] -> k <> k_bg /\ k <> [] /\ ~ In c_dot k) as K.
  { intros k I. repeat (destruct I as [<-|I]; [repeat split; [discriminate|discriminate|]; intros X; vm_compute in X; intuition discriminate|]). destruct I. }
  apply Forall_app. split.
  - destruct z as [[z []]|]; repeat constructor; cbn [fst]; apply K; cbn; auto.
  - unfold total_extra. destruct (number o); repeat constructor; cbn [fst]; apply K; cbn; auto.
Qed.

Lemma extras_continued js z o : member (with_extra (JList js) (head_extra z ++ total_extra o)) k_continued =
  match z with Some (_, true) => Some (JBool true) | _ => None end.
Proof. unfold total_extra. destruct z as [[z []]|], (number o); reflexivity. Qed.
Lemma extras_previous js z c o : member (with_extra (JList js) (head_extra (Some (z, c)) ++ total_extra o)) k_previous = Some (JInt z).
Proof. unfold total_extra. destruct c, (number o); reflexivity. Qed.
Lemma extras_total js z o : member (with_extra (JList js) (head_extra z ++ total_extra o)) k_total = option_map JFloat (number o).
Proof. unfold total_extra. destruct z as [[z []]|], (number o); reflexivity. Qed.

Lemma money_round x z : money x z -> py_round (fmul x f100) = Ok z.
Proof.
  intros M. pose proof (money_zero _ _ M) as Z. apply money_signed in M as (s & n & E & Ez & L).
  pose proof (fsum_exact s false false false false n 0 0 0 0 L) as X. unfold max_cents in X.
  specialize (X ltac:(lia) ltac:(lia) ltac:(lia) ltac:(lia)). unfold fsum in X. rewrite <- E in X.
  change (float_of_cents false 0) with (SpecFloat.S754_zero false) in X.
  destruct x as [sx|sx| |sx mx ex].
  - assert (z = 0%Z) as -> by (apply Z; now exists sx). now destruct sx.
  - discriminate X.
  - discriminate X.
  - assert (fadd (SpecFloat.S754_finite sx mx ex) (SpecFloat.S754_zero false) = SpecFloat.S754_finite sx mx ex) as A by reflexivity.
    rewrite !A in X. rewrite X, Ez. f_equal. cbn. lia.
Qed.

Lemma set_nth_length {A} (x : A) l : forall n, List.length (set_nth n x l) = List.length l.
Proof. induction l as [|y l IH]; intros [|n]; cbn [set_nth List.length]; auto. Qed.
Lemma set_nth_same {A} (x : A) l : forall n, (n < List.length l)%nat -> nth_error (set_nth n x l) n = Some x.
Proof. induction l as [|y l IH]; intros [|n] L; cbn [set_nth nth_error List.length] in *; try lia; [reflexivity|]. apply IH. lia. Qed.
Lemma set_nth_other {A} (x : A) l : forall n k, n <> k -> nth_error (set_nth n x l) k = nth_error l k.
Proof. induction l as [|y l IH]; intros [|n] [|k] N; cbn [set_nth nth_error]; try congruence; auto. Qed.

Lemma nth_error_lt {A} (l : list A) n : (n < List.length l)%nat -> exists x, nth_error l n = Some x.
Proof. intros L. destruct (nth_error l n) eqn:E; [eauto|]. apply nth_error_None in E. lia. Qed.

Section cluster.
Variables (w : world) (ks : keystore) (b : backend) (id : str) (key : bytes) (size : nat).
Hypothesis Hh : hash_ok w.
Hypothesis Ha : aes_ok w.
Hypothesis Hid : identifier id.
Hypothesis Hkey : List.length key = 32%nat.
Hypothesis Hsize : (5 <= size <= 16)%nat.

Let tagq : Type := list (nat * (request * verifier)).
Let tagi : Type := list (nat * item).

(** The start receipt of the register before *)
Definition start_past (T : tagi) (r : nat) : option past :=
  match r with
  | O => None
  | S k => match of_register k T with i :: _ => Some (i_jws i, i_rec i) | [] => None end
  end.
(** The state in which a register starts *)
Definition reg0 (T : tagi) (r : nat) : cashreg := CashReg id (option_map fst (start_past T r)) 0 key size.

Definition heap_inv (T : tagi) (tg : tagq) (heap : list cashreg) : Prop :=
  forall r, (r < List.length heap)%nat ->
    (forall k, r = S k -> of_register k T <> []) /\
    exists g, nth_error heap r = Some g /\ run w (reg0 T r) (of_register r tg) (of_register r T) g.

Definition good (i : item) : Prop := reads w (i_jws i) (i_rec i) /\ toJWSString (i_rec i) (lit "R1") = Ok (i_jws i)
  /\ r_registerId (i_rec i) = id.

Lemma run_good T r l items g : run w (reg0 T r) l items g -> Forall good items.
Proof.
  intros R. pose proof (run_each _ _ _ _ _ R) as E. clear R. induction E as [|[q v] i l items (g0 & z & G0 & _ & _ & I) E IH]; constructor; [|exact IH].
  split; [exact (is_reads _ _ _ _ _ _ _ I)|]. split; [exact (is_jws _ _ _ _ _ _ _ I)|]. rewrite (is_register _ _ _ _ _ _ _ I). exact G0.
Qed.

Lemma start_good T tg heap r s p : heap_inv T tg heap -> (r < List.length heap)%nat -> start_past T r = Some (s, p) ->
  reads w s p /\ r_registerId p = id /\ exists k i rest, r = S k /\ of_register k T = i :: rest /\ s = i_jws i /\ p = i_rec i.
Proof.
  intros H L E. destruct r as [|k]; [discriminate|]. cbn [start_past] in E. destruct (of_register k T) as [|i rest] eqn:O; [discriminate|].
  injection E as <- <-. destruct (H k ltac:(lia)) as (_ & g & _ & R). apply run_good in R. rewrite O in R. apply Forall_inv in R as (R1 & _ & R2).
  split; [exact R1|]. split; [exact R2|]. exists k, i, rest. auto.
Qed.

Lemma reg0_ok T tg heap r : heap_inv T tg heap -> (r < List.length heap)%nat -> register_ok (reg0 T r).
Proof.
  intros H L. split; [exact Hid|]. split; [exact Hkey|]. split; [exact Hsize|]. intros s E. cbn [reg0 cr_last] in E.
  destruct (start_past T r) as [[s' p]|] eqn:P; [|discriminate]. cbn [option_map fst] in E. injection E as <-.
  destruct (start_good _ _ _ _ _ _ H L P) as (R & _). split; [exact (CashRegSeq.reads_nonempty _ _ _ R)|]. eexists. exact (reads_encodes _ _ _ R).
Qed.

Lemma start_past_app T o i r : (forall k, r = S k -> of_register k T <> []) -> start_past (T ++ [(o, i)]) r = start_past T r.
Proof.
  intros N. destruct r as [|k]; [reflexivity|]. cbn [start_past]. rewrite of_register_app. specialize (N k eq_refl).
  destruct (of_register k T); [congruence|reflexivity].
Qed.

Lemma heap_step T tg heap o q v : heap_inv T tg heap -> (o < List.length heap)%nat ->
  register_orderly w size (of_register o (tg ++ [(o, (q, v))])) ->
  exists i g g', nth_error heap o = Some g /\ issue w g (lit "R1") q = (g', Ok (i_rec i)) /\ i_ver i = v
    /\ r_receiptId (i_rec i) = q_id q /\ good i /\ heap_inv (T ++ [(o, i)]) (tg ++ [(o, (q, v))]) (set_nth o g' heap).
Proof.
  intros H L Or. destruct (H o L) as (_ & g & Eg & R). rewrite of_register_app, of_register_same in Or.
  destruct (run_issue w (reg0 T o) _ _ g q v Hh Ha (reg0_ok _ _ _ _ H L) eq_refl R Or) as (i & g' & Ei & Vi & R').
  exists i, g, g'. split; [exact Eg|]. split; [exact Ei|]. split; [exact Vi|].
  split. { pose proof (run_ids _ _ _ _ _ R') as Ri. unfold ids in Ri. rewrite !map_app in Ri. cbn [map fst] in Ri. now apply app_inj_tail in Ri. }
  split. { apply run_good in R'. apply Forall_app in R' as [_ R']. now apply Forall_inv in R'. }
  intros r Lr. rewrite set_nth_length in Lr.
  destruct (H r Lr) as (N & g1 & E1 & R1). split.
  - intros k Ek. specialize (N k Ek). rewrite of_register_app. now destruct (of_register k T).
  - unfold reg0. rewrite (start_past_app T o i r N). fold (reg0 T r). rewrite !of_register_app. destruct (Nat.eq_dec o r) as [<-|D].
    + exists g'. rewrite set_nth_same by exact L. rewrite !of_register_same. auto.
    + exists g1. rewrite set_nth_other by exact D. rewrite !of_register_other by exact D. rewrite !app_nil_r. auto.
Qed.

(** A new register in the cluster *)
Lemma heap_new T tg heap : heap_inv T tg heap -> (heap <> [] -> of_register (List.length heap - 1) T <> []) ->
  of_register (List.length heap) T = [] -> of_register (List.length heap) tg = [] ->
  heap_inv T tg (heap ++ [reg0 T (List.length heap)]).
Proof.
  intros H N E1 E2 r L. rewrite app_length in L. cbn [List.length] in L. destruct (Nat.eq_dec r (List.length heap)) as [->|D].
  - split.
    + intros k Ek. rewrite Ek in N. replace (S k - 1)%nat with k in N by lia. apply N. now destruct heap.
    + exists (reg0 T (List.length heap)). rewrite nth_error_app2, Nat.sub_diag by lia. split; [reflexivity|]. rewrite E1, E2. reflexivity.
  - destruct (H r ltac:(lia)) as (A & g & B & C). split; [exact A|]. exists g. rewrite nth_error_app1 by lia. auto.
Qed.

Lemma turnover_fun l z z' : turnover l z -> turnover l z' -> z = z'.
Proof.
  intros (cs & F & ->) (cs' & F' & ->). revert cs' F'. induction F as [|i c l cs A F IH]; intros cs' F'; inversion F' as [|? c' ? cs'' A' F'']; subst; [reflexivity|].
  cbn [fold_right]. rewrite (IH _ F''). f_equal. destruct A as [[A ->]|[A B]], A' as [[A' ->]|[A' B']]; try tauto; try reflexivity.
  rewrite B in B'. now apply Ok_inj in B'.
Qed.

(** The receipts of one register so far *)
Lemma history_valid T tg heap r u : heap_inv T tg heap -> (r < List.length heap)%nat ->
  register_orderly w size (of_register r tg) -> cluster_orderly tg ->
  fresh_ids w u (negb (r =? 0)%nat) (ids (of_register r T)) ->
  valid_sequence w (Some key) (option_map fst (start_past T r)) new_register u None (of_register r T).
Proof.
  intros H L Or Cl Fr. pose proof (reg0_ok _ _ _ _ H L) as G. destruct (H r L) as (Nk & g & _ & R).
  apply (run_valid_past w (Some key) (reg0 T r) (of_register r tg) _ g _ (start_past T r)); [exact G|reflexivity| |reflexivity| |exact Or| | |exact R].
  - destruct (start_past T r) as [[s p]|] eqn:P; [|now left]. destruct (start_good _ _ _ _ _ _ H L P) as (Rd & _).
    cbn [cluster_past option_map fst]. split; [reflexivity|]. split; [exact (CashRegSeq.reads_nonempty _ _ _ Rd)|exact Rd].
  - intros k [= <-]. reflexivity.
  - intros s p P. destruct (start_good _ _ _ _ _ _ H L P) as (_ & Rg & k & i & rest & -> & O & -> & ->). cbn [reg0 cr_id].
    split; [exact Rg|]. destruct (H k ltac:(lia)) as (_ & gk & _ & Rk). pose proof (run_each _ _ _ _ _ Rk) as Ek. rewrite O in Ek.
    inversion Ek as [|[q v] ? lq ? (g0 & z & _ & _ & _ & I) _ Eq]; subst. cbn [fst snd] in I.
    intros a r Ea. unfold closed. rewrite (is_zda _ _ _ _ _ _ _ I), (is_time _ _ _ _ _ _ _ I). exact (Cl k (q, v) a lq r (eq_sym Eq) Ea).
  - rewrite <- (run_ids _ _ _ _ _ R). assert (negb (r =? 0)%nat = is_some (start_past T r)) as Eb.
    2: { rewrite Eb in Fr. exact Fr. }
    destruct r as [|k]; [reflexivity|]. cbn [start_past Nat.eqb negb]. specialize (Nk k eq_refl).
    destruct (of_register k T); [congruence|reflexivity].
Qed.

(** ** The verifier's state after some DEPs *)
Definition reg_at (T : tagi) (r : nat) : regstate := SeqFacts.after (Some key) new_register None (of_register r T).
Definition clus (m : nat) (T : tagi) : cluster :=
  Cluster (map (reg_at T) (List.seq 0 m)) (used_after (used_new b) (map snd T)).

Lemma seq_split m r : (r < m)%nat -> List.seq 0 m = List.seq 0 r ++ r :: List.seq (S r) (m - S r).
Proof. intros L. replace m with (r + S (m - S r))%nat at 1 by lia. now rewrite seq_app. Qed.

Lemma reg_start T r i l : of_register r T = i :: l -> s_start (reg_at T r) = Some (i_jws i).
Proof.
  intros E. unfold reg_at. rewrite E. rewrite after_nonempty by discriminate. cbn [set_last s_start].
  now rewrite (proj1 (regs_fields (Some key) (i :: l) new_register None)).
Qed.

Lemma start_last_seq T r : start_of_last (map (reg_at T) (List.seq 0 (S r))) = s_start (reg_at T r).
Proof. unfold start_of_last. replace (S r) with (r + 1)%nat by lia. rewrite seq_app, map_app. cbn [List.seq map Nat.add]. now rewrite rev_app_distr. Qed.

Lemma start_text T tg heap Tp o cur : heap_inv T tg heap -> (o < List.length heap)%nat -> T = Tp ++ map (pair o) cur ->
  start_of_last (map (reg_at Tp) (List.seq 0 o)) = option_map fst (start_past T o).
Proof.
  intros H L ->. destruct o as [|k]; [reflexivity|]. rewrite start_last_seq. destruct (H (S k) L) as (N & _). specialize (N k eq_refl).
  cbn [start_past]. rewrite of_register_app, of_register_not, app_nil_r in * by lia. destruct (of_register k Tp) as [|i l] eqn:E; [congruence|].
  now rewrite (reg_start _ _ _ _ E).
Qed.

Lemma increasing_filter {A} (f : A -> str) (p : A -> bool) l : increasing w (map f l) -> increasing w (map f (filter p l)).
Proof.
  induction l as [|x l IH]; intros I; [exact I|]. cbn [map] in I. pose proof (increasing_lt _ _ _ I) as Lt. destruct I as [_ I]. specialize (IH I).
  cbn [filter]. destruct (p x); [|exact IH]. cbn [map increasing]. split; [|exact IH].
  destruct (filter p l) as [|y m] eqn:E; [exact Logic.I|]. cbn [map]. apply Lt. apply in_map. apply (proj1 (filter_In p y l)). rewrite E. now left.
Qed.
Lemma NoDup_filter {A} (f : A -> str) (p : A -> bool) l : NoDup (map f l) -> NoDup (map f (filter p l)).
Proof.
  induction l as [|x l IH]; intros I; [exact I|]. cbn [map] in I. apply NoDup_cons_iff in I as [N I]. cbn [filter].
  destruct (p x); [|now apply IH]. cbn [map]. constructor; [|now apply IH]. intros X. apply N. apply in_map_iff in X as (y & <- & Y).
  apply in_map. now apply filter_In in Y.
Qed.
Lemma ids_register T r : ids_new w b (ids (map snd T)) -> ids_new w b (ids (of_register r T)).
Proof.
  unfold ids, of_register. rewrite !map_map. destruct b; cbn [ids_new]; [apply NoDup_filter|apply increasing_filter].
Qed.
Lemma ids_fresh c l : ids_new w b l -> fresh_ids w (used_new b) c l.
Proof.
  intros I. destruct b; cbn [used_new ids_new] in *.
  - apply fresh_unique. destruct l; [exact Logic.I|]. split; [exact I|]. split; auto.
  - apply fresh_natural. split; [exact I|]. destruct l; exact Logic.I.
Qed.

Lemma reg_at_same Tp o cur : reg_at (Tp ++ map (pair o) cur) o = SeqFacts.after (Some key) (reg_at Tp o) (last_of None (of_register o Tp)) cur.
Proof. unfold reg_at. now rewrite of_register_app, of_register_pairs, after_app. Qed.
Lemma reg_at_other Tp o cur r : o <> r -> reg_at (Tp ++ map (pair o) cur) r = reg_at Tp r.
Proof. intros N. unfold reg_at. now rewrite of_register_app, of_register_not, app_nil_r. Qed.
Lemma reg_at_seq Tp o cur a n : (o < a \/ a + n <= o)%nat -> map (reg_at (Tp ++ map (pair o) cur)) (List.seq a n) = map (reg_at Tp) (List.seq a n).
Proof. intros D. apply map_ext_in. intros r Ir. apply in_seq in Ir. apply reg_at_other. lia. Qed.

Lemma all_good T tg heap : heap_inv T tg heap -> Forall (fun x => (fst x < List.length heap)%nat) T -> Forall good (map snd T).
Proof.
  intros H F. rewrite Forall_forall in *. intros i I. apply in_map_iff in I as ([r j] & E & I). cbn [snd] in E. subst j.
  specialize (F _ I). cbn [fst] in F. destruct (H r F) as (_ & g & _ & R). apply run_good in R. rewrite Forall_forall in R. apply R. now apply of_register_In.
Qed.

Theorem verify_part T tg heap Tp o cur m dep : heap_inv T tg heap -> T = Tp ++ map (pair o) cur -> cur <> [] ->
  Forall (fun x => (fst x < m)%nat) Tp -> (forall r, (r < m)%nat -> of_register r Tp <> []) ->
  (o < m /\ List.length heap = m \/ o = m /\ List.length heap = S m)%nat ->
  (forall r, register_orderly w size (of_register r tg)) -> cluster_orderly tg -> ids_new w b (ids (map snd T)) ->
  dep_ok w ks dep cur ->
  verifyDEP w dep ks (Some key) (clus m Tp) (Some (Z.of_nat o)) = (clus (List.length heap) T, None).
Proof.
  intros H ET Nc Fp Np Om Or Co Ids D. assert (o < List.length heap)%nat as Lo by lia.
  assert (last_of None (of_register o Tp) = last_of None (of_register o Tp)) as _ by reflexivity.
  set (p := last_of None (of_register o Tp)).
  assert (valid_sequence w (Some key) (start_of_last (map (reg_at Tp) (List.seq 0 o))) (reg_at Tp o) (c_used (clus m Tp)) p cur) as V.
  { rewrite (start_text T tg heap Tp o cur H Lo ET).
    pose proof (history_valid T tg heap o (used_new b) H Lo (Or o) Co (ids_fresh _ _ (ids_register T o Ids))) as V.
    rewrite ET in V at 2. rewrite of_register_app, of_register_pairs in V. apply valid_app in V as [_ V].
    apply (valid_used _ _ _ _ _ _ _ _ V). intros q Eq. cbn [clus c_used]. unfold used_after.
    pose proof (ids_fresh false _ Ids) as Fr. rewrite ET, map_app in Fr. unfold ids in Fr. rewrite map_app in Fr. fold (ids (map snd Tp)) in Fr.
    rewrite map_map in Fr. cbn [snd] in Fr. rewrite map_map in Fr. cbn beta iota in Fr. apply fresh_app in Fr as [_ Fr]. destruct Tp as [|x Tp'].
    - destruct m as [|m]; [|exfalso; now apply (Np 0%nat ltac:(lia))]. assert (o = 0)%nat as -> by lia.
      cbn in Eq. destruct q as [[s r]|]; [destruct Eq as [Eq _]; discriminate|exact Fr].
    - apply fresh_unchecked. exact Fr. }
  assert (past_of w (reg_at Tp o) p) as P.
  { apply past_after; [now left|]. destruct (H o Lo) as (_ & g & _ & R). apply run_good in R.
    rewrite ET, of_register_app in R. apply Forall_app in R as [R _]. eapply Forall_impl; [|exact R]. intros i G. apply G. }
  apply verifyDEP_spec; [exact Hh|].
  exists (map (reg_at Tp) (List.seq 0 o)), (reg_at Tp o), (map (reg_at Tp) (List.seq (S o) (m - S o))), (reg_at T o), p, cur.
  split; [|split; [exact D|split; [exact P|split; [exact V|split]]]].
  - destruct Om as [[Lm _]|[-> _]].
    + replace (Z.of_nat o) with (Z.of_nat (List.length (map (reg_at Tp) (List.seq 0 o)))) by (rewrite map_length, seq_length; reflexivity).
      apply sel_old. cbn [clus c_regs]. rewrite (seq_split m o Lm), map_app. reflexivity.
    + replace (m - S m)%nat with 0%nat by lia. cbn [List.seq map]. assert (reg_at Tp m = new_register) as ->.
      { unfold reg_at. rewrite (of_register_above m Tp m Fp (Nat.le_refl m)). reflexivity. }
      change (map (reg_at Tp) (List.seq 0 m)) with (c_regs (clus m Tp)). apply sel_new.
      * right. cbn [clus c_regs]. rewrite map_length, seq_length. reflexivity.
      * destruct m as [|k]; [now left|right]. cbn [clus c_regs]. rewrite start_last_seq. destruct (of_register k Tp) as [|i l] eqn:E; [exfalso; exact (Np k ltac:(lia) E)|].
        rewrite (reg_start _ _ _ _ E). destruct (H k ltac:(lia)) as (_ & g & _ & R). apply run_good in R. rewrite ET, of_register_app, E in R.
        cbn [app] in R. apply Forall_inv in R as (R & _). apply CashRegSeq.reads_nonempty in R. destruct (i_jws i); [congruence|discriminate].
  - apply (register_after_iff _ _ _ _ _ _ _ _ V). rewrite ET, reg_at_same. reflexivity.
  - unfold clus. f_equal.
    + rewrite (seq_split _ o Lo), map_app. cbn [map]. rewrite ET. rewrite !reg_at_seq by lia. f_equal. f_equal.
      replace (List.length heap - S o)%nat with (m - S o)%nat by lia. reflexivity.
    + cbn [c_used clus]. rewrite ET, map_app, used_after_app. f_equal. rewrite map_map. cbn [snd]. now rewrite map_id.
Qed.

(** ** The DEPs *)
Hypothesis Hp : pem_ok w.

(** A group and its receipts *)
Definition gmatch (multi : bool) (g : rgroup rtuple) (its : list item) : Prop :=
  rg_recs g = map (fun i => (i_rec i, lit "R1")) its
  /\ Forall (fun i => i_ver i = verifier_of ks (rg_cert g)) its
  /\ its <> []
  /\ (forall c, rg_cert g = Some c \/ In c (rg_chain g) -> exists t, loadCert w t = Ok c)
  /\ (multi = true -> exists c, rg_cert g = Some c /\ trusted w ks c (rg_chain g))
  /\ (multi = false -> rg_cert g = None).

Lemma Forall2_map_imp {A B} (P Q : A -> B -> Prop) l m : (forall x y, P x y -> Q x y) -> Forall2 P l m -> Forall2 Q l m.
Proof. intros I F. induction F; constructor; auto. Qed.

Lemma doc_is doc gs : dep_doc w doc gs -> dep_is w doc gs.
Proof.
  assert (forall d k v, once d k v -> dict_get d k = Some v) as G.
  { intros d k v (a & c & -> & N & _). induction a as [|[k' v'] a IH]; cbn [app dict_get].
    - now rewrite str_eqb_refl.
    - cbn [map fst] in N. destruct (str_eqb k' k) eqn:E; [apply str_eqb_eq in E; subst; exfalso; apply N; now left|]. apply IH. intros X. apply N. now right. }
  intros (d & js & -> & O & F). exists d, js. split; [reflexivity|]. split; [now apply G|]. apply (Forall2_map_imp (group_doc w)); [|exact F].
  clear -G. intros j g (d & sc & chain & -> & O1 & O2 & C & O3 & Ch). exists d, (JList (map JStr (gr_texts g))), sc, chain.
  split; [reflexivity|]. split; [now apply G|]. split; [now left|]. split; [now apply G|]. split; [exact C|]. split; [now apply G|exact Ch].
Qed.

Lemma dep_of_groups multi gs gl extra : Forall2 (gmatch multi) gs gl -> Forall good (concat gl) -> gs <> [] ->
  (multi = false -> exists g, gs = [g]) -> extra_ok extra ->
  exists js, export w (gs, None) extra = Ok (with_extra (JList js) extra)
    /\ dep_ok w ks (with_extra (JList js) extra) (concat gl).
Proof.
  intros F G N M X.
  assert (Forall (parsed_group w) gs) as Pg.
  { clear N M. induction F as [|g its gs gl (R & V & Ni & Lo & _) F IH]; constructor.
    - split; [|exact Lo]. rewrite R, Forall_forall. intros r (i & <- & I)%in_map_iff. exists (i_jws i). apply parse_reads. split; [reflexivity|].
      cbn [concat] in G. apply Forall_app in G as [G _]. rewrite Forall_forall in G. apply (G i I).
    - apply IH. cbn [concat] in G. now apply Forall_app in G. }
  destruct (export_doc w gs extra Hp Pg X) as (dep & gs' & E & D & Wr & _). unfold export in E. cbn [fst snd] in E.
  apply bind_Ok in E as (js & Ej & E). apply Ok_inj in E. subst dep. exists js. split; [unfold export; cbn [fst snd]; rewrite Ej; reflexivity|].
  exists gs'. split; [now apply doc_is|].
  assert (Forall2 (text_item w) (dep_texts ks gs') (concat gl)) as T.
  { clear N M Pg D Ej X. revert gs' Wr. induction F as [|g its gs gl (R & V & Ni & _) F IH]; intros gs' Wr; inversion Wr as [|? g' ? gs'' (W1 & W2 & _) W']; subst; [constructor|].
    cbn [concat] in *. apply Forall_app in G as [G1 G2]. unfold dep_texts. cbn [flat_map]. apply Forall2_app; [|exact (IH G2 _ W')].
    rewrite W2. rewrite R in W1. clear -W1 V G1. revert W1. generalize (gr_texts g'). induction its as [|i its IH]; intros ts W1; inversion W1 as [|? t ? ts' [Et _] W1']; subst; [constructor|].
    apply Forall_cons_iff in G1 as [(Gr & Gj & _) G1], V as [V1 V]. cbn [map]. constructor; [|exact (IH V G1 _ W1')]. cbn [fst snd] in *.
    rewrite Gj in Et. apply Ok_inj in Et. subst t. split; [reflexivity|]. split; [exact Gr|exact V1]. }
  assert (occupied gs' = gs' /\ Forall2 (fun g g' => gr_cert g' = rg_cert g /\ gr_chain g' = rg_chain g) gs gs') as [Eo F'].
  { clear N M Pg D Ej X T. revert gs' Wr. induction F as [|g its gs gl (R & V & Ni & _) F IH]; intros gs' Wr; inversion Wr as [|? g' ? gs'' (W1 & W2 & W3) W']; subst; [split; constructor|].
    cbn [concat] in *. apply Forall_app in G as [G1 G2]. destruct (IH G2 _ W') as [A B]. unfold occupied in *. cbn [filter]. rewrite A. split; [|constructor; auto].
    rewrite R in W1. destruct its; [congruence|]. inversion W1 as [|? ? ? ? _ _ Q1 Q2]. reflexivity. }
  split; [|split; [exact T|]].
  - rewrite Eo. clear -F F' M. destruct multi.
    + left. clear M. revert gs' F'. induction F as [|g its gs gl (_ & _ & _ & _ & Tr & _) F IH]; intros gs' F'; inversion F' as [|? g' ? gs'' [C1 C2] F'']; subst; [constructor|].
      constructor; [|exact (IH _ F'')]. rewrite C1, C2. now apply Tr.
    + right. destruct (M eq_refl) as [g ->]. inversion F as [|? its ? ? (_ & _ & _ & _ & _ & Nn) _]; subst. inversion F' as [|? g' ? gs'' [C1 C2] F'']; subst. inversion F''; subst.
      exists g'. split; [reflexivity|]. rewrite C1. now apply Nn.
  - destruct F as [|g its gs gl (_ & _ & Ni & _) F]; [congruence|]. cbn [concat]. destruct its; [congruence|discriminate].
Qed.

Lemma counter_at T tg heap r g : heap_inv T tg heap -> nth_error heap r = Some g ->
  register_orderly w size (of_register r tg) -> cluster_orderly tg -> ids_new w b (ids (map snd T)) -> of_register r T <> [] ->
  forall z, requests_turnover (map fst (of_register r tg)) z -> s_counter (reg_at T r) = z.
Proof.
  intros H Eg Or Co Ids N z Tz. assert (r < List.length heap)%nat as L by (apply nth_error_Some; congruence).
  pose proof (history_valid T tg heap r (used_new b) H L Or Co (ids_fresh _ _ (ids_register T r Ids))) as V.
  pose proof (proj2 (register_after_iff _ _ _ _ _ _ _ _ V) eq_refl) as Ra. destruct (exists_last N) as (l0 & i & El).
  destruct Ra as [_ Ra]. destruct (Ra l0 i El) as (_ & _ & _ & _ & _ & _ & _ & Cn). destruct (Cn ltac:(discriminate)) as (y & Ty & Ey).
  unfold reg_at. etransitivity; [exact Ey|]. cbn [s_counter new_register]. rewrite Z.add_0_l.
  destruct (H r L) as (_ & g' & _ & R). destruct (run_counter _ _ _ _ _ R) as (_ & (y' & Ty' & Tq & _) & _).
  rewrite (turnover_fun _ _ _ Ty Ty'). clear -Tq Tz. destruct Tq as (cs & F & ->), Tz as (cs' & F' & ->).
  revert cs' F'. induction F as [|q c l cs A F IH]; intros cs' F'; inversion F' as [|? c' ? cs'' A' F'']; subst; [reflexivity|].
  unfold total in *. cbn [fold_right]. rewrite (IH _ F''). f_equal. destruct A as [[A ->]|[A B]], A' as [[A' ->]|[A' B']]; try congruence.
  exact (total_unique _ _ _ B B').
Qed.
End cluster.
