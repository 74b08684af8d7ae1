(** The DEPs of a test specification are accepted. *)
From Coq Require Import Lia ZifyClasses ZifyN ZifyNat ZifyBool.
From Verif Require Import PyBase World ListFacts Codec PyFloat PyTime Algo Receipt SpecReceipt FieldFacts ReceiptFacts Json Pem KeyStore State
  DepBase DepParser Verify DepExport VerifyReceipt VerifyFacts SpecDep SpecCluster SpecDoc SpecKeys SpecMerge SpecExport SeqFacts
  SpecAmount CashReg SpecCashReg CashRegFacts CashRegSeq Override OverrideFacts RunTest SpecRunTest ClusterRun RunTestFacts.
Open Scope N_scope.
Open Scope py_scope.

Definition onext (n r : nat) (i : instr) : nat * nat :=
  match in_new i, in_cont i with
  | NO_NEW_DEP, _ => (n, r)
  | NEW_CLUSTER_DEP, _ => (S n, n)
  | NEW_DEP, Some k => (n, k)
  | NEW_DEP, None => (n, r)
  end.
Lemma owners_cons n r i l : owners n r (i :: l) = snd (onext n r i) :: owners (fst (onext n r i)) (snd (onext n r i)) l.
Proof. cbn [owners]. unfold onext. destruct (in_new i), (in_cont i); reflexivity. Qed.

Lemma wants_request d i q : wants d i q -> q = instr_request d i.
Proof.
  intros (A & B & C & D & E & F & G & Z & S & Br & Wo & X & Y). unfold instr_request. destruct q as [q1 q2 q3 q4 q5 q6 q7 qs q8 q9]. cbn [q_id q_time q_a q_b q_c q_d q_e q_sys q_dummy q_reversal] in *.
  subst. f_equal. destruct (in_damaged i).
  - destruct qs as [z n|z n p]; cbn [sys_zda sys_serial] in *; [congruence|]. exfalso. apply (Br eq_refl). unfold works. cbn. eauto.
  - now apply Wo.
Qed.
Lemma asks_request d i q : asks d i q -> q = instr_request d i.
Proof. intros [A _]. now apply wants_request. Qed.
Lemma asks_plain d i q : asks d i q -> in_over i = no_override.
Proof. now intros [_ E]. Qed.

Lemma item_at_Some {A} (l : list A) n x : nth_error l n = Some x -> item_at l n = Ok x.
Proof. intros E. unfold item_at. now rewrite E. Qed.
Lemma truthy_text s : s <> [] -> truthy (Some s) = Some s.
Proof. destruct s; [congruence|reflexivity]. Qed.

Lemma verify_deps_app w ks key l1 l2 : forall c regs n c' regs' n',
  (forall rest, verify_deps w ks key c regs n (l1 ++ rest) = verify_deps w ks key c' regs' n' rest) ->
  verify_deps w ks key c regs n (l1 ++ l2) = verify_deps w ks key c' regs' n' l2.
Proof. intros c regs n c' regs' n' H. apply H. Qed.

Lemma gen_eta st : st = Gen (gn_heap st) (gn_reg st) (gn_r2r st) (gn_r2d st) (gn_cur st) (gn_start st) (gn_prev st) (gn_groups st) (gn_extra st)
  (gn_recs st) (gn_sig st) (gn_expected st) (gn_deps st).
Proof. now destruct st. Qed.

Section loop.
Variables (w : world) (ks : keystore) (b : backend) (id : str) (key : bytes) (size : nat) (multi : bool) (devs : list device).
Hypothesis Hh : hash_ok w.
Hypothesis Ha : aes_ok w.
Hypothesis Hp : pem_ok w.
Hypothesis Hid : identifier id.
Hypothesis Hkey : List.length key = 32%nat.
Hypothesis Hsize : (5 <= size <= 16)%nat.

Let tagq : Type := list (nat * (request * verifier)).
Let tagi : Type := list (nat * item).
Notation heap_inv := (heap_inv w id key size).
Notation clus := (clus b key).
Notation gmatch := (gmatch w ks multi).

Definition last_group (st : gen) (d : device) : rgroup rtuple :=
  RGroup (gn_recs st) (device_certificate multi d) (if multi then dv_chain d else []).

Record inv (l : list instr) (tg : tagq) (st : gen) (T Tp : tagi) (n o m : nat) (cur : list item) (dm : list nat) (d : device) : Prop := Inv {
  iv_heap : heap_inv T tg (gn_heap st);
  iv_len : List.length (gn_heap st) = n;
  iv_reg : gn_reg st = o;
  iv_r2r : gn_r2r st = List.seq 0 n;
  iv_all : forall r, (r < n)%nat -> of_register r T <> [];
  iv_tags : map fst T = map fst tg;
  iv_ids : ids (map snd T) = map (fun x => q_id (fst (snd x))) tg;
  iv_below : Forall (fun x => (fst x < n)%nat) T;
  iv_start : exists i rest, of_register (n - 1) T = i :: rest /\ gn_start st = Some (i_jws i);
  iv_T : T = Tp ++ map (pair o) cur;
  iv_m : (o < m /\ n = m \/ o = m /\ n = S m)%nat;
  iv_Tp : Forall (fun x => (fst x < m)%nat) Tp;
  iv_Tpall : forall r, (r < m)%nat -> of_register r Tp <> [];
  iv_ver : forall rest, verify_deps w ks (Some key) (new_cluster b) [] 0 (gn_deps st ++ rest) = verify_deps w ks (Some key) (clus m Tp) dm m rest;
  iv_dm : List.length dm = List.length (gn_deps st);
  iv_r2d_len : List.length (gn_r2d st) = n;
  iv_r2d : forall r x, nth_error (gn_r2d st) r = Some x -> nth_error (dm ++ [o]) x = Some r;
  iv_cur : gn_cur st = Z.of_nat o;
  iv_extra : exists z, gn_extra st = head_extra z
    /\ match z with Some (j, true) => (o < m)%nat /\ exists k, j = Z.of_nat k /\ nth_error dm k = Some o | _ => o = m end;
  iv_dev : exists l0 i, l = l0 ++ [i] /\ gn_sig st = Some (in_dev i) /\ gn_expected st = in_turnover i /\ nth_error devs (in_dev i) = Some d;
  iv_groups : exists gl, concat gl = cur /\ Forall2 gmatch (gn_groups st ++ [last_group st d]) gl;
  iv_single : multi = false -> gn_groups st = []
}.

Definition prefix_ok (tg : tagq) : Prop :=
  (forall r, register_orderly w size (of_register r tg)) /\ cluster_orderly tg
  /\ ids_new w b (map (fun x => q_id (fst (snd x))) tg).

Lemma gmatch_nonempty gs gl : Forall2 gmatch gs gl -> gs <> [] -> concat gl <> [].
Proof. intros [|g its gs' gl' (_ & _ & N & _) F] NE; [congruence|]. cbn [concat]. destruct its; [congruence|discriminate]. Qed.

Lemma iv_nonempty l tg st T Tp n o m cur dm d : inv l tg st T Tp n o m cur dm d -> cur <> [].
Proof. intros V. destruct (iv_groups _ _ _ _ _ _ _ _ _ _ _ V) as (gl & <- & F). apply (gmatch_nonempty _ _ F). now destruct (gn_groups st). Qed.

(** The end of a DEP *)
Lemma finish l tg st T Tp n o m cur dm d : inv l tg st T Tp n o m cur dm d -> prefix_ok tg ->
  (forall x, gn_expected st = Some x -> ~ is_zero x -> exists z, money x z /\ requests_turnover (map fst (of_register o tg)) z) ->
  exists dep, export w (gn_groups st ++ [last_group st d], None) (all_extra st) = Ok dep
    /\ forall rest, verify_deps w ks (Some key) (new_cluster b) [] 0 ((gn_deps st ++ [dep]) ++ rest)
         = verify_deps w ks (Some key) (clus n T) (dm ++ [o]) n rest.
Proof.
  intros V (Or & Co & Ids) Ex. pose proof (iv_nonempty _ _ _ _ _ _ _ _ _ _ _ V) as Nc.
  destruct V. destruct iv_groups0 as (gl & Ec & F). destruct iv_extra0 as (z & Ez & Hz).
  assert (all_extra st = head_extra z ++ total_extra (gn_expected st)) as Ea by (unfold all_extra; rewrite Ez; reflexivity).
  assert (Forall (good w id) cur) as Gc.
  { pose proof (all_good w id key size _ _ _ iv_heap0 ltac:(rewrite iv_len0; exact iv_below0)) as G. rewrite iv_T0, map_app, map_map in G. cbn [snd] in G. rewrite map_id in G. now apply Forall_app in G. }
  destruct (dep_of_groups w ks id size Hsize Hp multi _ gl (all_extra st) F) as (js & Ee & D).
  { rewrite Ec. exact Gc. }
  { now destruct (gn_groups st). }
  { intros M. rewrite (iv_single0 M). eexists. reflexivity. }
  { rewrite Ea. apply extras_ok. }
  eexists. split; [exact Ee|]. intros rest. rewrite <- app_assoc. cbn [app]. rewrite iv_ver0. cbn [verify_deps].
  rewrite Ec in D. set (dep := with_extra (JList js) (all_extra st)) in *.
  assert (dep_register dm m dep = Ok (o, n)) as ->.
  { unfold dep_register, dep. rewrite Ea, extras_continued. destruct z as [[j []]|].
    - destruct Hz as (Lo & k & -> & Ek). rewrite extras_previous. destruct (Z.ltb_spec (Z.of_nat k) 0); [lia|].
      rewrite Nat2Z.id, (item_at_Some _ _ _ Ek). cbn [bind]. do 2 f_equal. lia.
    - do 2 f_equal; lia.
    - do 2 f_equal; lia. }
  rewrite <- iv_ids0 in Ids.
  rewrite (verify_part w ks b id key size Hh Hid Hkey Hsize T tg (gn_heap st) Tp o cur m dep iv_heap0 iv_T0 Nc iv_Tp0 iv_Tpall0 ltac:(lia) Or Co Ids D).
  rewrite iv_len0. assert (check_total dep (clus n T) o = None) as ->; [|reflexivity].
  unfold check_total, dep. rewrite Ea, extras_total. unfold number. destruct (gn_expected st) as [x|] eqn:Ex0; [|reflexivity].
  destruct (nonzero x) eqn:Nx; [|reflexivity]. cbn [option_map]. rewrite Nx.
  destruct (Ex x eq_refl) as (y & My & Ty). { intros [sx ->]. discriminate Nx. }
  rewrite (money_round x y My). cbn [RunTestFacts.clus c_regs].
  assert (o < n)%nat as Lo by lia. rewrite nth_error_map, (nth_error_nth' _ 0%nat) by (rewrite seq_length; exact Lo). rewrite seq_nth by exact Lo.
  cbn [option_map Nat.add]. destruct (nth_error_lt (gn_heap st) o ltac:(lia)) as [g Eg].
  rewrite (counter_at w b id key size Hid Hkey Hsize T tg (gn_heap st) o g iv_heap0 Eg (Or o) Co Ids (iv_all0 o Lo) y Ty).
  now rewrite Z.eqb_refl.
Qed.

(** ** One instruction *)
Definition dev_ok (d : device) : Prop :=
  multi = true -> (exists c, dv_cert d = Some c /\ trusted w ks c (dv_chain d))
    /\ forall c, dv_cert d = Some c \/ In c (dv_chain d) -> exists t, loadCert w t = Ok c.

Lemma gmatch_one d it : dev_ok d -> i_ver it = verifier_of ks (device_certificate multi d) ->
  gmatch (RGroup [(i_rec it, lit "R1")] (device_certificate multi d) (if multi then dv_chain d else [])) [it].
Proof.
  intros D V. split; [reflexivity|]. split; [constructor; [exact V|constructor]|]. split; [discriminate|]. cbn [rg_cert rg_chain].
  unfold dev_ok in D. unfold device_certificate. destruct multi.
  - destruct (D eq_refl) as (T & Lo). split; [exact Lo|]. split; [auto|discriminate].
  - split; [intros c [X|[]]; discriminate|]. split; [discriminate|reflexivity].
Qed.
Lemma gmatch_more recs c ch its it : gmatch (RGroup recs c ch) its -> i_ver it = verifier_of ks c ->
  gmatch (RGroup (recs ++ [(i_rec it, lit "R1")]) c ch) (its ++ [it]).
Proof.
  intros (A & B & C & D) V. cbn [rg_recs rg_cert rg_chain] in *. split; [cbn [rg_recs]; now rewrite A, map_app|]. split; [apply Forall_app; split; [exact B|constructor; [exact V|constructor]]|].
  split; [now destruct its|]. exact D.
Qed.
Lemma Forall2_last {A B} (P : A -> B -> Prop) l x m : Forall2 P (l ++ [x]) m -> exists m0 y, m = m0 ++ [y] /\ Forall2 P l m0 /\ P x y.
Proof. intros F. apply Forall2_app_inv_l in F as (m0 & m1 & F0 & F1 & ->). inversion F1 as [|? y ? ? Py F2]; subst. inversion F2; subst. eauto. Qed.

Lemma prefix_last tg x : prefix_ok (tg ++ [x]) -> register_orderly w size (of_register (fst x) (tg ++ [x])).
Proof. intros (A & _). apply A. Qed.

Lemma ids_snoc (T : tagi) (tg : tagq) o it q v : ids (map snd T) = map (fun x => q_id (fst (snd x))) tg -> r_receiptId (i_rec it) = q_id q ->
  ids (map snd (T ++ [(o, it)])) = map (fun x => q_id (fst (snd x))) (tg ++ [(o, (q, v))]).
Proof. intros E I. unfold ids in *. rewrite !map_app, E. cbn [map fst snd]. now rewrite I. Qed.

Lemma all_snoc (T : tagi) n o it r : (forall r, (r < n)%nat -> of_register r T <> []) -> (r < n)%nat -> of_register r (T ++ [(o, it)]) <> [].
Proof. intros A L X. rewrite of_register_app in X. apply app_eq_nil in X as [X _]. exact (A r L X). Qed.

Lemma start_true l tg st T Tp n o m cur dm d : inv l tg st T Tp n o m cur dm d -> exists s i rest,
  gn_start st = Some s /\ truthy (gn_start st) = Some s /\ of_register (n - 1) T = i :: rest /\ s = i_jws i.
Proof.
  intros []. destruct iv_start0 as (i & rest & E & S). exists (i_jws i), i, rest. split; [exact S|]. split; [|auto]. rewrite S. apply truthy_text.
  assert (n - 1 < n)%nat as L by lia. destruct (iv_heap0 (n - 1)%nat ltac:(rewrite iv_len0; exact L)) as (_ & g & _ & R). apply run_good in R.
  rewrite E in R. apply Forall_inv in R as (R & _). exact (CashRegSeq.reads_nonempty _ _ _ R).
Qed.

Lemma end_group_no st i i0 d : in_new i = NO_NEW_DEP -> gn_sig st = Some (in_dev i0) -> nth_error devs (in_dev i0) = Some d ->
  end_group multi devs st i = Ok (if multi && negb (in_dev i0 =? in_dev i)%nat then append_group st (dv_cert d) (dv_chain d) else st)%bool.
Proof.
  intros E S D. unfold end_group. rewrite E, S. destruct multi; [|reflexivity]. cbn [orb andb]. destruct (negb _); [|reflexivity].
  now rewrite (item_at_Some _ _ _ D).
Qed.
Lemma end_group_new st i i0 d : in_new i <> NO_NEW_DEP -> gn_sig st = Some (in_dev i0) -> nth_error devs (in_dev i0) = Some d ->
  end_group multi devs st i = Ok (append_group st (device_certificate multi d) (if multi then dv_chain d else [])).
Proof.
  intros E S D. unfold end_group. rewrite S. unfold device_certificate. destruct (in_new i); [congruence| |]; destruct multi; try reflexivity; cbn [orb]; now rewrite (item_at_Some _ _ _ D).
Qed.
Lemma certs_multi d : multi = true -> device_certificate multi d = dv_cert d /\ (if multi then dv_chain d else []) = dv_chain d.
Proof. intros E. unfold device_certificate. now rewrite E. Qed.

Lemma step_no l tg st T Tp n o m cur dm d i d' v : inv l tg st T Tp n o m cur dm d -> in_new i = NO_NEW_DEP ->
  in_over i = no_override -> nth_error devs (in_dev i) = Some d' -> dev_ok d' -> v = verifier_of ks (device_certificate multi d') ->
  prefix_ok (tg ++ [(o, (instr_request d' i, v))]) ->
  exists st' it, gen_step w id key size multi devs st i = Ok st'
    /\ inv (l ++ [i]) (tg ++ [(o, (instr_request d' i, v))]) st' (T ++ [(o, it)]) Tp n o m (cur ++ [it]) dm d'.
Proof.
  intros V Ni No Ed Dd -> Pre. pose proof (start_true _ _ _ _ _ _ _ _ _ _ _ V) as (s & si & srest & Es & Et & Eo & Esi). destruct V.
  assert (o < n)%nat as Lo by lia.
  destruct (heap_step w id key size Hh Ha Hid Hkey Hsize T tg (gn_heap st) o (instr_request d' i) _ iv_heap0 ltac:(lia) (prefix_last _ _ Pre))
    as (it & g & g' & Eg & Ei & Vi & Ii & Gi & Hi).
  assert (exists st1, end_group multi devs st i = Ok st1
      /\ st1 = Gen (gn_heap st) (gn_reg st) (gn_r2r st) (gn_r2d st) (gn_cur st) (gn_start st) (gn_prev st) (gn_groups st1) (gn_extra st) (gn_recs st1) (gn_sig st) (gn_expected st) (gn_deps st)
      /\ (multi = false -> gn_groups st1 = [])
      /\ exists gl, concat gl = cur ++ [it]
           /\ Forall2 gmatch (gn_groups st1 ++ [RGroup (gn_recs st1 ++ [(i_rec it, lit "R1")]) (device_certificate multi d') (if multi then dv_chain d' else [])]) gl)
    as (st1 & E1 & F1 & Sg & gl & Ec & Fg).
  { destruct iv_groups0 as (gl & Ec & Fg). destruct iv_dev0 as (l0 & i0 & _ & Eg0 & _ & Ed0). apply Forall2_last in Fg as (gl0 & its & -> & Fg & Fl).
    rewrite concat_app in Ec. cbn [concat] in Ec. rewrite app_nil_r in Ec.
    rewrite (end_group_no st i i0 d Ni Eg0 Ed0). eexists. split; [reflexivity|].
    destruct (multi && negb (in_dev i0 =? in_dev i)%nat)%bool eqn:Eb.
    - apply andb_prop in Eb as [Em _]. split; [reflexivity|]. split; [congruence|].
      cbn [append_group gn_heap gn_reg gn_r2r gn_r2d gn_cur gn_start gn_prev gn_groups gn_extra gn_recs gn_sig gn_expected gn_deps].
      exists ((gl0 ++ [its]) ++ [[it]]). split.
      + rewrite !concat_app. cbn [concat]. rewrite !app_nil_r. now rewrite Ec.
      + apply Forall2_app; [apply Forall2_app; [exact Fg|]|].
        * constructor; [|constructor]. unfold last_group in Fl. destruct (certs_multi d Em) as [X1 X2]. rewrite X1, X2 in Fl. exact Fl.
        * constructor; [|constructor]. cbn [app]. now apply gmatch_one.
    - split; [exact (gen_eta st)|]. split; [exact iv_single0|].
      assert (device_certificate multi d' = device_certificate multi d /\ (if multi then dv_chain d' else []) = (if multi then dv_chain d else [])) as [X1 X2].
      { apply andb_false_iff in Eb as [Em|Eq]; [unfold device_certificate; now rewrite Em|]. apply negb_false_iff, Nat.eqb_eq in Eq.
        rewrite Eq, Ed in Ed0. apply Some_inj in Ed0. now subst. }
      exists (gl0 ++ [its ++ [it]]). split; [rewrite concat_app; cbn [concat]; rewrite app_nil_r, app_assoc; now rewrite Ec|].
      apply Forall2_app; [exact Fg|]. constructor; [|constructor]. rewrite X1, X2. apply gmatch_more; [exact Fl|]. now rewrite <- X1. }
  revert Sg Fg F1. generalize (gn_groups st1), (gn_recs st1). intros gs1 rs1 Sg Fg F1. subst st1.
  eexists. exists it. split.
  - unfold gen_step. rewrite (item_at_Some _ _ _ Ed). cbn [bind]. unfold new_in_cluster. rewrite Ni. cbn [bind]. rewrite E1. cbn [bind].
    unfold end_dep. rewrite Ni. cbn [bind]. unfold add_receipt. cbn [gn_heap gn_reg gn_r2r gn_r2d gn_cur gn_start gn_prev gn_groups gn_extra gn_recs gn_sig gn_expected gn_deps]. rewrite No.  change (given (ov_prefix no_override) (lit "R1")) with (lit "R1").
    rewrite iv_reg0, (item_at_Some _ _ _ Eg). cbn [bind]. rewrite issue_none, Ei. cbn [bind]. rewrite Et. reflexivity.
  - constructor; cbn [gn_heap gn_reg gn_r2r gn_r2d gn_cur gn_start gn_prev gn_groups gn_extra gn_recs gn_sig gn_expected gn_deps]; try assumption.
    + rewrite set_nth_length. exact iv_len0.
    + reflexivity.
    + intros r Lr. now apply (all_snoc T n).
    + rewrite !map_app, iv_tags0. reflexivity.
    + now apply ids_snoc.
    + apply Forall_app. split; [exact iv_below0|]. constructor; [exact Lo|constructor].
    + exists si, (srest ++ of_register (n - 1) [(o, it)]). rewrite of_register_app, Eo. split; [reflexivity|]. now rewrite Es, Esi.
    + rewrite map_app, app_assoc, <- iv_T0. reflexivity.
    + exists l, i. auto.
    + exists gl. split; [exact Ec|exact Fg].
Qed.

Definition stated (st : gen) (tg : tagq) (o : nat) : Prop :=
  forall x, gn_expected st = Some x -> ~ is_zero x -> exists z, money x z /\ requests_turnover (map fst (of_register o tg)) z.

Lemma prefix_init tg x : prefix_ok (tg ++ x) -> prefix_ok tg.
Proof.
  intros (A & B & C). split; [|split].
  - intros r. specialize (A r). rewrite of_register_app in A. exact (register_orderly_prefix _ _ _ _ A).
  - intros r p q l1 l2 E1 E2. apply (B r p q (l1 ++ of_register r x) (l2 ++ of_register (S r) x)); rewrite of_register_app; [rewrite E1|rewrite E2]; reflexivity.
  - rewrite map_app in C. destruct b; cbn [ids_new] in *.
    + revert C. generalize (map (fun x0 => q_id (fst (snd x0))) tg) (map (fun x0 => q_id (fst (snd x0))) x). intros a c.
      induction a as [|y a IH]; [constructor|]. cbn [app]. intros P. apply NoDup_cons_iff in P as [P Q]. constructor; [|now apply IH].
      intros I. apply P. apply in_or_app. now left.
    + revert C. generalize (map (fun x0 => q_id (fst (snd x0))) tg) (map (fun x0 => q_id (fst (snd x0))) x). intros a c.
      induction a as [|y a IH]; [constructor|]. cbn [app increasing]. intros [P Q]. split; [|now apply IH]. destruct a; [exact I|exact P].
Qed.

Lemma set_item_cur st n o y : gn_cur st = Z.of_nat o -> List.length (gn_r2d st) = n -> (o < n)%nat ->
  set_item (gn_r2d st) (gn_cur st) y = Ok (set_nth o y (gn_r2d st)).
Proof.
  intros E L Lo. unfold set_item. rewrite E. destruct (Z.ltb_spec (Z.of_nat o) 0); [lia|].
  destruct ((0 <=? Z.of_nat o) && (Z.of_nat o <? Z.of_nat (List.length (gn_r2d st))))%bool%Z eqn:B; [now rewrite Nat2Z.id|]. lia.
Qed.

Lemma r2d_next (dm l : list nat) o o' : (o < List.length l)%nat -> (forall r x, nth_error l r = Some x -> nth_error (dm ++ [o]) x = Some r) ->
  forall r x, nth_error (set_nth o (List.length dm) l) r = Some x -> nth_error (dm ++ [o]) x = Some r /\ nth_error ((dm ++ [o]) ++ [o']) x = Some r.
Proof.
  intros Lo H r x E. assert (nth_error (dm ++ [o]) x = Some r) as A.
  { destruct (Nat.eq_dec o r) as [<-|D].
    - rewrite set_nth_same in E by exact Lo. injection E as <-. rewrite nth_error_app2, Nat.sub_diag by lia. reflexivity.
    - rewrite set_nth_other in E by exact D. now apply H. }
  split; [exact A|]. rewrite nth_error_app1; [exact A|]. apply nth_error_Some. congruence.
Qed.

Lemma below_register {A} (l : list (nat * A)) n r : Forall (fun x => (fst x < n)%nat) l -> (n <= r)%nat -> of_register r l = [].
Proof. intros F L. exact (of_register_above r l n F L). Qed.
Lemma tags_below (T : tagi) (tg : tagq) n : map fst T = map fst tg -> Forall (fun x => (fst x < n)%nat) T -> Forall (fun x => (fst x < n)%nat) tg.
Proof.
  intros E F. rewrite Forall_forall in *. intros x I. apply (in_map fst) in I. rewrite <- E in I. apply in_map_iff in I as (y & <- & Iy). exact (F y Iy).
Qed.

Lemma step_new l tg st T Tp n o m cur dm d i d' v o' : inv l tg st T Tp n o m cur dm d -> in_new i = NEW_DEP ->
  o' = match in_cont i with Some k => k | None => o end -> (o' < n)%nat ->
  in_over i = no_override -> nth_error devs (in_dev i) = Some d' -> dev_ok d' -> v = verifier_of ks (device_certificate multi d') ->
  prefix_ok (tg ++ [(o', (instr_request d' i, v))]) -> stated st tg o ->
  exists st' it, gen_step w id key size multi devs st i = Ok st'
    /\ inv (l ++ [i]) (tg ++ [(o', (instr_request d' i, v))]) st' (T ++ [(o', it)]) T n o' n [it] (dm ++ [o]) d'.
Proof.
  intros V Ni Eo' Lo' No Ed Dd -> Pre Sta. destruct (finish _ _ _ _ _ _ _ _ _ _ _ V (prefix_init _ _ Pre) Sta) as (dep & Ee & Fin).
  pose proof (start_true _ _ _ _ _ _ _ _ _ _ _ V) as (s & si & srest & Es & Et & Eo & Esi). destruct V.
  assert (o < n)%nat as Lo by lia.
  destruct (heap_step w id key size Hh Ha Hid Hkey Hsize T tg (gn_heap st) o' (instr_request d' i) _ iv_heap0 ltac:(lia) (prefix_last _ _ Pre))
    as (it & g & g' & Eg & Ei & Vi & Ii & Gi & Hi).
  destruct iv_dev0 as (l0 & i0 & _ & Eg0 & _ & Ed0).
  pose proof (r2d_next dm (gn_r2d st) o o' ltac:(lia) iv_r2d0) as R2.
  assert (exists k, match in_cont i with
      | Some k => do reg <- item_at (gn_r2r st) k; do d <- item_at (set_nth o (List.length (gn_deps st)) (gn_r2d st)) k;
            Ok (reg, Z.of_nat k, [(k_previous, JInt (Z.of_nat d)); (k_continued, JBool true)])
      | None => Ok (gn_reg st, gn_cur st, [(k_previous, JInt (Z.of_nat (List.length (gn_deps st)))); (k_continued, JBool true)])
      end = Ok (o', Z.of_nat o', head_extra (Some (Z.of_nat k, true))) /\ nth_error (dm ++ [o]) k = Some o') as (k & Ek & Hk).
  { rewrite <- iv_dm0. destruct (in_cont i) as [k|].
    - subst k. destruct (nth_error_lt (set_nth o (List.length dm) (gn_r2d st)) o') as [x Ex]. { rewrite set_nth_length. lia. }
      exists x. rewrite iv_r2r0. rewrite (item_at_Some (List.seq 0 n) o' o'). 2: { rewrite (nth_error_nth' _ 0%nat) by (rewrite seq_length; exact Lo'). now rewrite seq_nth. }
      cbn [bind]. rewrite (item_at_Some _ _ _ Ex). split; [reflexivity|]. now apply R2.
    - exists (List.length dm). rewrite iv_reg0, iv_cur0, Eo'. split; [reflexivity|]. rewrite nth_error_app2, Nat.sub_diag by lia. reflexivity. }
  eexists. exists it. split.
  - unfold gen_step. rewrite (item_at_Some _ _ _ Ed). cbn [bind]. unfold new_in_cluster. rewrite Ni. cbn [bind].
    rewrite (end_group_new st i i0 d ltac:(congruence) Eg0 Ed0). cbn [bind]. unfold end_dep. rewrite Ni.
    cbn [append_group gn_heap gn_reg gn_r2r gn_r2d gn_cur gn_start gn_prev gn_groups gn_extra gn_recs gn_sig gn_expected gn_deps].
    change (all_extra (append_group st (device_certificate multi d) (if multi then dv_chain d else []))) with (all_extra st).
    unfold last_group in Ee. rewrite Ee. cbn [bind]. rewrite (set_item_cur st n o _ iv_cur0 iv_r2d_len0 Lo). cbn [bind]. rewrite Ek. cbn [bind].
    unfold add_receipt. cbn [gn_heap gn_reg gn_r2r gn_r2d gn_cur gn_start gn_prev gn_groups gn_extra gn_recs gn_sig gn_expected gn_deps]. rewrite No.  change (given (ov_prefix no_override) (lit "R1")) with (lit "R1").
    rewrite (item_at_Some _ _ _ Eg). cbn [bind]. rewrite issue_none, Ei. cbn [bind]. rewrite Et. reflexivity.
  - constructor; cbn [gn_heap gn_reg gn_r2r gn_r2d gn_cur gn_start gn_prev gn_groups gn_extra gn_recs gn_sig gn_expected gn_deps]; try assumption.
    + rewrite set_nth_length. exact iv_len0.
    + reflexivity.
    + intros r Lr. now apply (all_snoc T n).
    + rewrite !map_app, iv_tags0. reflexivity.
    + now apply ids_snoc.
    + apply Forall_app. split; [exact iv_below0|]. constructor; [exact Lo'|constructor].
    + exists si, (srest ++ of_register (n - 1) [(o', it)]). rewrite of_register_app, Eo. split; [reflexivity|]. now rewrite Es, Esi.
    + reflexivity.
    + left. auto.
    + rewrite !app_length, iv_dm0. reflexivity.
    + rewrite set_nth_length. exact iv_r2d_len0.
    + rewrite <- iv_dm0. intros r x E. now apply R2.
    + reflexivity.
    + exists (Some (Z.of_nat k, true)). split; [reflexivity|]. split; [exact Lo'|]. exists k. auto.
    + exists l, i. auto.
    + exists [[it]]. split; [reflexivity|]. cbn [app]. constructor; [|constructor]. now apply gmatch_one.
    + reflexivity.
Qed.

Lemma step_cluster l tg st T Tp n o m cur dm d i d' v : inv l tg st T Tp n o m cur dm d -> in_new i = NEW_CLUSTER_DEP ->
  S o = n ->
  in_over i = no_override -> nth_error devs (in_dev i) = Some d' -> dev_ok d' -> v = verifier_of ks (device_certificate multi d') ->
  prefix_ok (tg ++ [(n, (instr_request d' i, v))]) -> stated st tg o ->
  exists st' it, gen_step w id key size multi devs st i = Ok st'
    /\ inv (l ++ [i]) (tg ++ [(n, (instr_request d' i, v))]) st' (T ++ [(n, it)]) T (S n) n n [it] (dm ++ [o]) d'.
Proof.
  intros V Ni On No Ed Dd -> Pre Sta. destruct (finish _ _ _ _ _ _ _ _ _ _ _ V (prefix_init _ _ Pre) Sta) as (dep & Ee & Fin).
  pose proof (start_true _ _ _ _ _ _ _ _ _ _ _ V) as (s & si & srest & Es & Et & Eo & Esi). destruct V.
  assert (o < n)%nat as Lo by lia.
  assert (of_register n T = []) as ET by (apply (below_register T n n iv_below0); lia).
  assert (of_register n tg = []) as EG by (apply (below_register tg n n (tags_below _ _ _ iv_tags0 iv_below0)); lia).
  assert (heap_inv T tg (gn_heap st ++ [reg0 id key size T n])) as H1.
  { rewrite <- iv_len0. apply (heap_new w id key size Hkey Hsize); [exact iv_heap0| | |]; rewrite ?iv_len0; [|exact ET|exact EG]. intros _. rewrite Eo. discriminate. }
  assert (reg0 id key size T n = CashReg id (Some s) 0 key size) as Er.
  { unfold reg0. rewrite <- On. cbn [start_past]. replace o with (n - 1)%nat by lia. rewrite Eo, Esi. reflexivity. }
  destruct (heap_step w id key size Hh Ha Hid Hkey Hsize T tg _ n (instr_request d' i) _ H1 ltac:(rewrite app_length; cbn; lia) (prefix_last _ _ Pre))
    as (it & g & g' & Eg & Ei & Vi & Ii & Gi & Hi). rewrite Er in Eg, Hi.
  destruct iv_dev0 as (l0 & i0 & _ & Eg0 & _ & Ed0).
  pose proof (r2d_next dm (gn_r2d st) o n ltac:(lia) iv_r2d0) as R2.
  set (st0 := Gen (gn_heap st ++ [CashReg id (Some s) 0 key size]) (List.length (gn_heap st)) (gn_r2r st) (gn_r2d st) (gn_cur st) None (gn_prev st)
            (gn_groups st) (gn_extra st) (gn_recs st) (gn_sig st) (gn_expected st) (gn_deps st)).
  assert (new_in_cluster id key size st i = Ok st0) as E0.
  { unfold new_in_cluster. rewrite Ni, Et. unfold new_cashreg. destruct (negb _) eqn:B; [reflexivity|]. exfalso. lia. }
  eexists. exists it. split.
  - unfold gen_step. rewrite (item_at_Some _ _ _ Ed). cbn [bind]. rewrite E0. cbn [bind].
    rewrite (end_group_new st0 i i0 d ltac:(congruence) Eg0 Ed0). cbn [bind]. unfold end_dep. rewrite Ni. unfold st0.
    cbn [append_group gn_heap gn_reg gn_r2r gn_r2d gn_cur gn_start gn_prev gn_groups gn_extra gn_recs gn_sig gn_expected gn_deps].
    match goal with |- context [all_extra ?x] => change (all_extra x) with (all_extra st) end.
    unfold last_group in Ee. rewrite Ee. cbn [bind]. rewrite (set_item_cur st n o _ iv_cur0 iv_r2d_len0 Lo). cbn [bind].
    unfold add_receipt. cbn [gn_heap gn_reg gn_r2r gn_r2d gn_cur gn_start gn_prev gn_groups gn_extra gn_recs gn_sig gn_expected gn_deps]. rewrite No.  change (given (ov_prefix no_override) (lit "R1")) with (lit "R1").
    rewrite iv_len0, (item_at_Some _ _ _ Eg). cbn [bind]. rewrite issue_none, Ei. cbn [bind truthy]. rewrite (proj1 (proj2 Gi)). cbn [bind]. reflexivity.
  - constructor; cbn [gn_heap gn_reg gn_r2r gn_r2d gn_cur gn_start gn_prev gn_groups gn_extra gn_recs gn_sig gn_expected gn_deps]; try assumption.
    + rewrite set_nth_length, app_length. cbn [List.length]. lia.
    + reflexivity.
    + rewrite iv_r2r0. replace (S n) with (n + 1)%nat by lia. rewrite seq_app. reflexivity.
    + intros r Lr. destruct (Nat.eq_dec r n) as [->|D]; [rewrite of_register_app, of_register_same; now destruct (of_register n T)|]. apply (all_snoc T n); [exact iv_all0|lia].
    + rewrite !map_app, iv_tags0. reflexivity.
    + now apply ids_snoc.
    + apply Forall_app. split; [eapply Forall_impl; [|exact iv_below0]; cbn; intros; lia|]. constructor; [cbn; lia|constructor].
    + replace (S n - 1)%nat with n by lia. exists it, []. rewrite of_register_app, ET, of_register_same. auto.
    + reflexivity.
    + right. auto.
    + rewrite !app_length, iv_dm0. reflexivity.
    + rewrite app_length, set_nth_length. cbn [List.length]. lia.
    + rewrite app_length. cbn [List.length]. rewrite <- iv_dm0. intros r x E.
      assert (r < n \/ r = n \/ n < r)%nat as [Lr|[->|Lr]] by lia.
      * rewrite nth_error_app1 in E by (rewrite set_nth_length; lia). now apply R2.
      * rewrite nth_error_app2 in E by (rewrite set_nth_length; lia). rewrite set_nth_length, iv_r2d_len0, Nat.sub_diag in E. cbn [nth_error] in E. injection E as <-.
        rewrite nth_error_app2 by (rewrite app_length; cbn [List.length]; lia). rewrite app_length. cbn [List.length]. now rewrite Nat.sub_diag.
      * exfalso. assert (r < List.length (set_nth o (List.length dm) (gn_r2d st) ++ [List.length dm + 1]))%nat as X by (apply nth_error_Some; congruence).
        rewrite app_length, set_nth_length in X. cbn [List.length] in X. lia.
    + rewrite iv_cur0. lia.
    + exists (Some (Z.of_nat (gn_prev st), false)). split; reflexivity.
    + exists l, i. auto.
    + exists [[it]]. split; [reflexivity|]. cbn [app]. constructor; [|constructor]. now apply gmatch_one.
    + reflexivity.
Qed.

(** ** All of them *)
Definition gen0 : gen := Gen [CashReg id None 0 key size] 0 [] [] (-1) None 0 [] [] [] None None [].

Lemma step_first i d' v : in_new i = NO_NEW_DEP ->
  in_over i = no_override -> nth_error devs (in_dev i) = Some d' -> dev_ok d' -> v = verifier_of ks (device_certificate multi d') ->
  prefix_ok [(0%nat, (instr_request d' i, v))] ->
  exists st' it, gen_step w id key size multi devs gen0 i = Ok st'
    /\ inv [i] [(0%nat, (instr_request d' i, v))] st' [(0%nat, it)] [] 1 0 0 [it] [] d'.
Proof.
  intros Ni No Ed Dd -> Pre.
  assert (heap_inv [] [] ([] ++ [reg0 id key size [] 0%nat])) as H1.
  { apply (heap_new w id key size Hkey Hsize [] [] []); [intros r L; cbn in L; lia|congruence|reflexivity|reflexivity]. }
  destruct (heap_step w id key size Hh Ha Hid Hkey Hsize [] [] _ 0%nat (instr_request d' i) _ H1 ltac:(cbn; lia) (prefix_last [] _ Pre))
    as (it & g & g' & Eg & Ei & Vi & Ii & Gi & Hi).
  eexists. exists it. split.
  - unfold gen_step. rewrite (item_at_Some _ _ _ Ed). cbn [bind]. unfold new_in_cluster, end_group, end_dep. rewrite Ni. unfold gen0.
    cbn [bind gn_sig]. replace (if multi then None else None) with (@None nat) by (now destruct multi). cbn [bind].
    unfold add_receipt. cbn [gn_heap gn_reg gn_r2r gn_r2d gn_cur gn_start gn_prev gn_groups gn_extra gn_recs gn_sig gn_expected gn_deps]. rewrite No.  change (given (ov_prefix no_override) (lit "R1")) with (lit "R1").
    change [CashReg id None 0 key size] with ([] ++ [reg0 id key size [] 0%nat]).
    rewrite (item_at_Some _ _ _ Eg). cbn [bind]. rewrite issue_none, Ei. cbn [bind truthy]. rewrite (proj1 (proj2 Gi)). cbn [bind]. reflexivity.
  - constructor; cbn [gn_heap gn_reg gn_r2r gn_r2d gn_cur gn_start gn_prev gn_groups gn_extra gn_recs gn_sig gn_expected gn_deps]; try reflexivity.
    + exact Hi.
    + intros r Lr. replace r with 0%nat by lia. rewrite of_register_same. discriminate.
    + unfold ids. cbn [map fst snd]. now rewrite Ii.
    + repeat constructor.
    + exists it, []. split; [|reflexivity]. exact (of_register_same 0 it).
    + right. auto.
    + constructor.
    + intros r L. lia.
    + cbn [app]. intros [|r] x E; cbn in E; [injection E as <-; reflexivity|]. destruct r; discriminate E.
    + exists None. split; reflexivity.
    + exists [], i. auto.
    + exists [[it]]. split; [reflexivity|]. cbn [app]. constructor; [|constructor]. now apply gmatch_one.
Qed.

Lemma last_tag l tg st T Tp n o m cur dm d : inv l tg st T Tp n o m cur dm d -> exists t1 qv, tg = t1 ++ [(o, qv)].
Proof.
  intros V. pose proof (iv_nonempty _ _ _ _ _ _ _ _ _ _ _ V) as Nc. destruct V. destruct (exists_last Nc) as (c0 & it & Ec).
  rewrite iv_T0, Ec, !map_app in iv_tags0. cbn [map fst] in iv_tags0. rewrite app_assoc in iv_tags0.
  destruct tg as [|x tg _] using rev_ind. { apply app_eq_nil in iv_tags0 as [_ X]. discriminate X. }
  rewrite map_app in iv_tags0. cbn [map] in iv_tags0. apply app_inj_tail in iv_tags0 as [_ E]. exists tg, (snd x). rewrite E. now destruct x.
Qed.

Lemma tags_have l tg st T Tp n o m cur dm d j r : inv l tg st T Tp n o m cur dm d -> nth_error (map fst tg) j = Some r -> (r < n)%nat.
Proof.
  intros [] E. apply nth_error_In in E. rewrite <- iv_tags0 in E. apply in_map_iff in E as (x & <- & I). rewrite Forall_forall in iv_below0. exact (iv_below0 x I).
Qed.
Lemma of_register_tag {A} r (l : list (nat * A)) : of_register r l <> [] -> In r (map fst l).
Proof.
  intros H. induction l as [|[k x] l IH]; [now apply H|]. unfold of_register in *. cbn [map fst filter] in *. destruct (Nat.eqb_spec k r) as [->|]; [now left|right; now apply IH].
Qed.

Lemma loop_all L TG : prefix_ok TG -> (forall i d, In i L -> nth_error devs (in_dev i) = Some d -> dev_ok d) ->
  totals_stated L TG -> continues_existing L (map fst TG) -> newest_in_use L (map fst TG) ->
  forall rest l tg tgr st T Tp n o m cur dm d, inv l tg st T Tp n o m cur dm d ->
    L = l ++ rest -> TG = tg ++ tgr -> List.length tg = List.length l -> map fst tgr = owners n o rest ->
    Forall2 (asked ks multi devs) rest (map snd tgr) ->
    exists st' T' Tp' n' o' m' cur' dm' d', gen_loop w id key size multi devs st rest = Ok st' /\ inv L TG st' T' Tp' n' o' m' cur' dm' d'.
Proof.
  intros Pre Dev Tot New1 New2. induction rest as [|i rest IH]; intros l tg tgr st T Tp n o m cur dm d V EL ET Len Ot Fa.
  - destruct tgr; [|discriminate Ot]. rewrite app_nil_r in EL, ET. subst. do 9 eexists. split; [reflexivity|exact V].
  - rewrite owners_cons in Ot. destruct tgr as [|[o' [q v]] tgr]; [discriminate Ot|]. cbn [map fst snd] in Ot, Fa.
    injection Ot as Eo Ot. inversion Fa as [|? ? ? ? (d' & Ed & As & Ev) Fr]; subst x y l0 l'. cbn [fst snd] in As, Ev. pose proof (asks_plain _ _ _ As) as No. apply asks_request in As. subst q.
    assert (In i L) as Ii by (rewrite EL; apply in_or_app; right; now left).
    pose proof (Dev i d' Ii Ed) as Dd.
    assert (prefix_ok (tg ++ [(o', (instr_request d' i, v))])) as P1. { apply (prefix_init _ tgr). rewrite <- app_assoc. cbn [app]. rewrite <- ET. exact Pre. }
    assert (stated st tg o \/ in_new i = NO_NEW_DEP) as Sta.
    { destruct (in_new i) eqn:Ni; [now right|left|left]; intros x Ex Nx; destruct (last_tag _ _ _ _ _ _ _ _ _ _ _ V) as (t1 & qv & Et);
        destruct (iv_dev _ _ _ _ _ _ _ _ _ _ _ V) as (l0 & i0 & El & _ & Ei & _); rewrite Et;
        (apply (Tot l0 i0 (i :: rest) t1 o qv ((o', (instr_request d' i, v)) :: tgr) x); [rewrite EL, El, <- app_assoc; reflexivity|cbn; congruence|congruence|exact Nx|rewrite ET, Et, <- app_assoc; reflexivity|]);
        rewrite Et, El, !app_length in Len; cbn [List.length] in Len; lia. }
    assert (exists st1 T1 Tp1 n1 o1 m1 cur1 dm1, gen_step w id key size multi devs st i = Ok st1
        /\ inv (l ++ [i]) (tg ++ [(o', (instr_request d' i, v))]) st1 T1 Tp1 n1 o1 m1 cur1 dm1 d' /\ (n1, o1) = onext n o i)
      as (st1 & T1 & Tp1 & n1 & o1 & m1 & cur1 & dm1 & E1 & V1 & En).
    { unfold onext in *. destruct (in_new i) eqn:Ni; cbn [fst snd] in *.
      - subst o'. destruct (step_no _ _ _ _ _ _ _ _ _ _ _ i d' v V Ni No Ed Dd Ev P1) as (st1 & it & E1 & V1). do 8 eexists. split; [exact E1|]. split; [exact V1|]. reflexivity.
      - destruct Sta as [Sta|]; [|discriminate].
        assert (o' = match in_cont i with Some k => k | None => o end) as Eo2 by (now destruct (in_cont i)).
        assert (o' < n)%nat as Lo'.
        { destruct (in_cont i) as [k|] eqn:Ec; subst o'; [|destruct V; lia]. destruct (New1 l i rest EL Ni k Ec) as (j & Lj & Ej).
          rewrite ET, map_app, nth_error_app1 in Ej by (rewrite map_length; lia). exact (tags_have _ _ _ _ _ _ _ _ _ _ _ _ _ V Ej). }
        destruct (step_new _ _ _ _ _ _ _ _ _ _ _ i d' v o' V Ni Eo2 Lo' No Ed Dd Ev P1 Sta) as (st1 & it & E1 & V1). do 8 eexists. split; [exact E1|]. split; [exact V1|]. rewrite Eo2. now destruct (in_cont i).
      - destruct Sta as [Sta|]; [|discriminate].
        assert (S o = n) as On.
        { pose proof V as []. destruct iv_dev0 as (l0 & i0 & El & _). destruct (last_tag _ _ _ _ _ _ _ _ _ _ _ V) as (t1 & qv & Et).
          assert (List.length t1 = List.length l0) as L0. { rewrite Et, El, !app_length in Len. cbn [List.length] in Len. lia. }
          assert (In (n - 1)%nat (map fst tg)) as In1. { rewrite <- iv_tags0. apply of_register_tag. apply iv_all0. lia. }
          apply In_nth_error in In1 as (j & Ej). assert (j < List.length tg)%nat as Lj. { rewrite <- (map_length fst). apply nth_error_Some. congruence. }
          assert (n - 1 <= o)%nat as X; [|lia].
          apply (New2 l0 i0 i rest o) with (j := j).
          - rewrite EL, El, <- app_assoc. reflexivity.
          - exact Ni.
          - rewrite ET, map_app, nth_error_app1 by (rewrite map_length, Len, El, app_length; cbn [List.length]; lia).
            rewrite Et, map_app, nth_error_app2 by (rewrite map_length; lia). now rewrite map_length, L0, Nat.sub_diag.
          - rewrite Et, app_length in Lj. cbn [List.length] in Lj. lia.
          - rewrite ET, map_app, nth_error_app1 by (rewrite map_length; lia). exact Ej. }
        assert (o' = n) as -> by (now destruct (in_cont i)).
        destruct (step_cluster _ _ _ _ _ _ _ _ _ _ _ i d' v V Ni On No Ed Dd Ev P1 Sta) as (st1 & it & E1 & V1). do 8 eexists. split; [exact E1|]. split; [exact V1|]. now destruct (in_cont i). }
    rewrite <- En in Ot. cbn [fst snd] in Ot.
    destruct (IH (l ++ [i]) (tg ++ [(o', (instr_request d' i, v))]) tgr st1 T1 Tp1 n1 o1 m1 cur1 dm1 d' V1) as (st' & T' & Tp' & n' & o2 & m' & cur' & dm' & d2 & E2 & V2).
    + now rewrite <- app_assoc.
    + now rewrite <- app_assoc.
    + rewrite !app_length, Len. reflexivity.
    + exact Ot.
    + exact Fr.
    + exists st', T', Tp', n', o2, m', cur', dm', d2. split; [|exact V2]. cbn [gen_loop]. rewrite E1. exact E2.
Qed.
End loop.

(** ** The number of DEPs *)
Lemma gen_step_deps w id key size multi devs st i st' : gen_step w id key size multi devs st i = Ok st' ->
  List.length (gn_deps st') = (List.length (gn_deps st) + if starts_dep i then 1 else 0)%nat.
Proof.
  unfold gen_step. intros (d & _ & (s1 & E1 & (s2 & E2 & (s3 & E3 & E4)%bind_Ok)%bind_Ok)%bind_Ok)%bind_Ok.
  assert (gn_deps s1 = gn_deps st) as <-.
  { unfold new_in_cluster in E1. destruct (in_new i); try (apply Ok_inj in E1; now subst). destruct (truthy _); [|apply Ok_inj in E1; now subst].
    apply bind_Ok in E1 as (g & _ & E1). apply Ok_inj in E1. now subst. }
  assert (gn_deps s2 = gn_deps s1) as <-.
  { unfold end_group in E2. destruct (if multi then _ else _).
    - destruct (_ || _)%bool; [|apply Ok_inj in E2; now subst]. apply bind_Ok in E2 as (g & _ & E2). apply Ok_inj in E2. now subst.
    - apply Ok_inj in E2. subst s2. now destruct (in_new i). }
  assert (gn_deps st' = gn_deps s3) as ->.
  { unfold add_receipt in E4. apply bind_Ok in E4 as (g & _ & E4). destruct (issue_over _ _ _ _ _) as [g' r]. apply bind_Ok in E4 as (rec & _ & E4).
    destruct (truthy _); [apply Ok_inj in E4; now subst|]. apply bind_Ok in E4 as (jws & _ & E4). apply Ok_inj in E4. now subst. }
  unfold end_dep, starts_dep in *. destruct (in_new i); [apply Ok_inj in E3; subst; lia| |];
    apply bind_Ok in E3 as (dep & _ & (r2d & _ & ([[reg cur] extra] & _ & E3)%bind_Ok)%bind_Ok); apply Ok_inj in E3; subst s3; cbn [gn_deps]; rewrite app_length; reflexivity.
Qed.
Lemma gen_loop_deps w id key size multi devs l : forall st st', gen_loop w id key size multi devs st l = Ok st' ->
  List.length (gn_deps st') = (List.length (gn_deps st) + List.length (filter starts_dep l))%nat.
Proof.
  induction l as [|i l IH]; intros st st' E; cbn [gen_loop] in E.
  - apply Ok_inj in E. subst. cbn. lia.
  - apply bind_Ok in E as (s1 & E1 & E2). rewrite (IH _ _ E2), (gen_step_deps _ _ _ _ _ _ _ _ _ E1). cbn [filter]. destruct (starts_dep i); cbn [List.length]; lia.
Qed.

Lemma owners_length l : forall n o, List.length (owners n o l) = List.length l.
Proof. induction l as [|i l IH]; intros n o; [reflexivity|]. rewrite owners_cons. cbn [List.length]. now rewrite IH. Qed.
Lemma combine_fst {A B} (a : list A) : forall (b : list B), List.length a = List.length b -> map fst (combine a b) = a.
Proof. induction a as [|x a IH]; intros [|y b] E; try discriminate E; [reflexivity|]. cbn [combine map fst]. rewrite IH; [reflexivity|]. now injection E. Qed.
Lemma combine_snd {A B} (a : list A) : forall (b : list B), List.length a = List.length b -> map snd (combine a b) = b.
Proof. induction a as [|x a IH]; intros [|y b] E; try discriminate E; [reflexivity|]. cbn [combine map snd]. rewrite IH; [reflexivity|]. now injection E. Qed.

Lemma Forall2_len {A B} (P : A -> B -> Prop) a c : Forall2 P a c -> List.length a = List.length c.
Proof. intros F. induction F; cbn [List.length]; congruence. Qed.

Theorem runTest_accepted w ks b id key size multi devs l qs : hash_ok w -> aes_ok w -> pem_ok w ->
  identifier id -> List.length key = 32%nat -> (5 <= size <= 16)%nat ->
  test_rules w ks size b multi devs l qs -> newest_in_use l (owners 1 0 l) ->
  exists deps c, runTest w id key size multi devs l = Ok deps /\ testVerify w ks key b deps = T_ok c
    /\ List.length deps = S (List.length (filter starts_dep l))
    /\ (forall r, (r < List.length (c_regs c))%nat <-> In r (owners 1 0 l))
    /\ (forall r reg z, nth_error (c_regs c) r = Some reg -> requests_turnover (map fst (of_register r (combine (owners 1 0 l) qs))) z -> s_counter reg = z)
    /\ c_used c = fold_left used_add (map (fun qv => q_id (fst qv)) qs) (used_new b).
Proof.
  intros Hh Ha Hp Hid Hkey Hsize (As & (i & rest & El & Ni) & Fol & Or & Co & Ids & Tr & Tot) New.
  assert (List.length (owners 1 0 l) = List.length qs) as Lq. { rewrite owners_length. now apply Forall2_len in As. }
  set (TG := combine (owners 1 0 l) qs) in *.
  assert (map fst TG = owners 1 0 l) as Ef by (now apply combine_fst).
  assert (map snd TG = qs) as Es by (now apply combine_snd).
  assert (map (fun x => q_id (fst (snd x))) TG = map (fun qv => q_id (fst qv)) qs) as Ei. { rewrite <- Es, map_map. reflexivity. }
  assert (prefix_ok w b size TG) as Pre. { split; [exact Or|]. split; [exact Co|]. now rewrite Ei. }
  assert (forall i d, In i l -> nth_error devs (in_dev i) = Some d -> dev_ok w ks multi d) as Dev.
  { intros i0 d0 I0 E0 M. now apply (Tr M i0 d0). }
  rewrite <- Ef in Fol, New.
  assert (exists q v d, TG = (0%nat, (q, v)) :: combine (owners 1 0 rest) (tl qs) /\ qs = (q, v) :: tl qs /\ nth_error devs (in_dev i) = Some d
     /\ q = instr_request d i /\ v = verifier_of ks (device_certificate multi d) /\ in_over i = no_override /\ Forall2 (asked ks multi devs) rest (tl qs)) as (q & v & d & E0 & Eq & Ed & -> & -> & No & Fr).
  { clear -As El Ni TG. unfold TG in *. subst l. inversion As as [|? [q v] ? qs' (d & A & B & C) Fr]; subst qs. cbn [fst snd] in *. cbn [owners]. rewrite Ni.
    cbn [combine tl]. exists q, v, d. split; [reflexivity|]. split; [reflexivity|]. split; [exact A|]. split; [now apply asks_request|]. split; [exact C|]. split; [exact (asks_plain _ _ _ B)|exact Fr]. }
  assert (List.length (owners 1 0 rest) = List.length (tl qs)) as Lr. { rewrite owners_length. now apply Forall2_len in Fr. }
  destruct (step_first w ks b id key size multi devs Hh Ha Hid Hkey Hsize i d _ Ni No Ed (Dev i d ltac:(rewrite El; now left) Ed) eq_refl) as (st1 & it & E1 & V1).
  { apply (prefix_init w b size _ (combine (owners 1 0 rest) (tl qs))). cbn [app]. now rewrite <- E0. }
  destruct (loop_all w ks b id key size multi devs Hh Ha Hp Hid Hkey Hsize l TG Pre Dev Tot Fol New rest _ _ (combine (owners 1 0 rest) (tl qs)) _ _ _ _ _ _ _ _ _ V1)
    as (st & T & Tp & n & o & m & cur & dm & d2 & E2 & V2).
  { exact El. } { exact E0. } { reflexivity. } { now apply combine_fst. } { now rewrite combine_snd by exact Lr. }
  destruct (finish w ks b id key size multi devs Hh Hp Hid Hkey Hsize _ _ _ _ _ _ _ _ _ _ _ V2 Pre) as (dep & Ee & Fin).
  { intros x Ex Nx. pose proof V2 as V3. apply last_tag in V3 as (t1 & qv & Et); try assumption.
    pose proof (iv_dev _ _ _ _ _ _ _ _ _ _ _ _ _ _ _ _ _ _ _ V2) as V4. destruct V4 as (l0 & i0 & El0 & _ & Ei0 & _). rewrite Et.
    apply (Tot l0 i0 [] t1 o qv [] x); [exact El0|exact I|congruence|exact Nx|exact Et|].
    apply (f_equal (@List.length _)) in El0, Et. rewrite app_length in El0, Et. cbn [List.length] in *.
    rewrite <- (map_length fst TG), Ef, owners_length in Et. lia. }
  exists (gn_deps st ++ [dep]), (clus b key n T). split; [|split; [|split; [|split; [|split]]]].
  - unfold runTest. unfold new_cashreg. destruct (negb _) eqn:B; [|exfalso; lia]. cbn [bind]. rewrite El. cbn [gen_loop]. change (Gen [CashReg id None 0 key size] 0 [] [] (-1) None 0 [] [] [] None None []) with (gen0 id key size).
    rewrite E1. cbn [bind]. rewrite E2. cbn [bind]. unfold gen_end.
    pose proof (iv_dev _ _ _ _ _ _ _ _ _ _ _ _ _ _ _ _ _ _ _ V2) as V4. destruct V4 as (l0 & i0 & _ & Eg & _ & Ed2).
    unfold last_group, device_certificate in Ee. destruct multi; cbn [bind].
    + rewrite Eg, (item_at_Some _ _ _ Ed2). cbn [bind append_group gn_groups gn_deps]. change (all_extra (append_group st (dv_cert d2) (dv_chain d2))) with (all_extra st). now rewrite Ee.
    + cbn [append_group gn_groups gn_deps]. change (all_extra (append_group st None [])) with (all_extra st). now rewrite Ee.
  - unfold testVerify. rewrite <- (app_nil_r (gn_deps st ++ [dep])), Fin. reflexivity.
  - rewrite app_length. cbn [List.length]. rewrite (gen_loop_deps _ _ _ _ _ _ _ _ _ E2), (gen_step_deps _ _ _ _ _ _ _ _ _ E1). rewrite El. cbn [filter].
    unfold starts_dep at 1 3. rewrite Ni. cbn [gen0 gn_deps List.length]. lia.
  - intros r. cbn [clus c_regs]. rewrite map_length, seq_length. rewrite <- Ef. destruct V2. rewrite <- iv_tags0. split.
    + intros Lr0. apply of_register_tag. now apply iv_all0.
    + intros (x & <- & Ix)%in_map_iff. rewrite Forall_forall in iv_below0. exact (iv_below0 x Ix).
  - intros r reg z Er Tz. cbn [clus c_regs] in Er. destruct V2. assert (r < n)%nat as Lr0. { rewrite <- (seq_length n 0), <- (map_length (reg_at key T)). apply nth_error_Some. congruence. }
    rewrite nth_error_map, (nth_error_nth' _ 0%nat) in Er by (rewrite seq_length; exact Lr0). rewrite seq_nth in Er by exact Lr0. cbn [option_map Nat.add] in Er. apply Some_inj in Er. subst reg.
    destruct (nth_error_lt (gn_heap st) r ltac:(lia)) as [g Eg]. destruct Pre as (_ & _ & Pi). rewrite <- iv_ids0 in Pi.
    exact (counter_at w b id key size Hid Hkey Hsize T TG (gn_heap st) r g iv_heap0 Eg (Or r) Co Pi (iv_all0 r Lr0) z Tz).
  - cbn [clus c_used]. destruct V2. unfold used_after. rewrite <- Ei, <- iv_ids0. reflexivity.
Qed.
