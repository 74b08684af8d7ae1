(** The demo program makes DEPs that are accepted. *)
From Coq Require Import Floats.SpecFloat Lia.
From Verif Require Import PyBase World Codec PyFloat PyTime Algo Receipt SpecReceipt SpecKeys Json ListFacts Pem KeyStore VerifyReceipt State DepParser Verify DepExport
  SpecDep SpecCluster SpecAmount SpecExport SpecNatural NaturalFacts IntFacts CodecFacts CashReg SpecCashReg CashRegText CashRegFacts CashRegSeq Demo SpecDemo.
Open Scope N_scope.
Open Scope py_scope.

(** ** IDs *)
Lemma digits_ascii n : Forall ascii_digit (digits 10 n) /\ digits 10 n <> [].
Proof.
  pose proof (digits_numeral 10 n ltac:(lia)) as D. split; [|exact (numeral_nonempty _ _ _ D)].
  eapply Forall_impl; [|exact (numeral_digits _ _ _ D)]. intros c (v & [H H']). unfold ascii_digit. lia.
Qed.
Lemma number_digits n : number (digits 10 n) = n.
Proof.
  destruct (digits_ascii n) as [F N0].
  pose (w := {| u_decimal := fun _ => None; u_isdigit := fun _ => false; u_isalnum := fun _ => false;
    u_isspace := fun _ => false; u_upper := fun s => s; u_lower := fun s => s; w_sha256 := fun b => b; w_aes := fun _ b => b;
    w_es256_verify := fun _ _ _ => false; w_es256_sign := fun _ b => b; w_load_cert := fun _ => None;
    w_load_pubkey := fun _ => None; w_serial := fun _ => 0%Z; w_cert_pubkey := fun c => c;
    w_cert_signed_by := fun _ _ => false; w_cert_pem := fun c => c; w_pubkey_pem := fun k => k |}).
  destruct (digits_int w _ N0 F) as [_ H].
  assert (py_int w 10 (digits 10 n) = Some (Z.of_N n)) as E by (apply py_int_numeral; [lia|apply digits_numeral; lia]).
  rewrite E in H. injection H. lia.
Qed.
Lemma number_zeros k s : number (repeat 48 k ++ s) = number s.
Proof.
  unfold number. rewrite fold_left_app. replace (fold_left (fun v c => 10 * v + (c - 48)) (repeat 48 k) 0) with 0; [reflexivity|].
  induction k as [|k IH]; [reflexivity|]. exact IH.
Qed.
Lemma pad5_ascii i : Forall ascii_digit (pad5 i) /\ pad5 i <> [].
Proof.
  unfold pad5. cbv zeta. destruct (digits_ascii i) as [F N0]. split.
  - apply Forall_app. split; [|exact F]. apply Forall_forall. intros c H. apply repeat_spec in H. subst. unfold ascii_digit. lia.
  - intros E. apply app_eq_nil in E as [_ E]. contradiction.
Qed.
Lemma pad5_number i : number (pad5 i) = i.
Proof. unfold pad5. cbv zeta. now rewrite number_zeros, number_digits. Qed.
Lemma pad5_inj i j : pad5 i = pad5 j -> i = j.
Proof. intros H. rewrite <- (pad5_number i), <- (pad5_number j). now rewrite H. Qed.
Lemma pad5_identifier i : identifier (pad5 i).
Proof.
  destruct (pad5_ascii i) as [F N0]. split; [exact N0|]. rewrite Forall_forall in F. split.
  - intros H. specialize (F _ H). unfold ascii_digit, c_us in F. lia.
  - apply encodes_ascii, Forall_forall. intros c H. specialize (F c H). unfold ascii_digit in F. lia.
Qed.
Lemma pad5_pieces i : pieces (pad5 i) [] [(pad5 i, [])].
Proof.
  destruct (pad5_ascii i) as [F N0]. split; [cbn [flat_map fst snd app]; now rewrite !app_nil_r|]. split; [constructor|].
  split; [constructor; [cbn [fst snd]; split; [exact N0|split; [exact F|constructor]]|constructor]|].
  intros [|? [|? ?]] nt nt' l' X; discriminate.
Qed.
Lemma pad5_lt w i j : i < j -> natural_lt w (pad5 i) (pad5 j).
Proof.
  intros L. apply (natural_iff w _ _ _ _ _ _ (pad5_pieces i) (pad5_pieces j)).
  1, 2: constructor; [reflexivity|constructor; [reflexivity|constructor]].
  exists [VText (lower w [])]. right. exists (VNumber i), (VNumber j), [VText (lower w [])], [VText (lower w [])].
  unfold values. cbn [flat_map fst snd app]. rewrite !pad5_number. split; [reflexivity|]. split; [reflexivity|exact L].
Qed.
Lemma pad5_numbered i : numbered_id i (pad5 (N.of_nat i)).
Proof.
  exists (digits 10 (N.of_nat i)), (5 - List.length (digits 10 (N.of_nat i)))%nat. split; [reflexivity|].
  split; [unfold fmt_d, fmt_base; replace (Z.of_nat i <? 0)%Z with false by lia; f_equal; lia|].
  unfold pad5. cbv zeta. rewrite app_length, repeat_length. lia.
Qed.

(** ** Amounts *)
Lemma round_bound m e : (Zpos m * 2 ^ Z.max e 0 <= 1000 * 2 ^ Z.max (- e) 0)%Z -> (0 <= round_half_even (100 * Zpos m) e <= 100000)%Z.
Proof.
  intros H. unfold round_half_even. destruct (0 <=? e)%Z eqn:E.
  - apply Z.leb_le in E. rewrite Z.max_l in H by lia. rewrite Z.max_r in H by lia. change (2 ^ 0)%Z with 1%Z in H.
    pose proof (Z.pow_pos_nonneg 2 e ltac:(lia) ltac:(lia)). nia.
  - apply Z.leb_gt in E. rewrite Z.max_r in H by lia. rewrite Z.max_l in H by lia. change (2 ^ 0)%Z with 1%Z in H.
    cbv zeta. set (d := (2 ^ - e)%Z) in *. assert (0 < d)%Z as D by (apply Z.pow_pos_nonneg; lia).
    pose proof (Z.div_mod (100 * Z.pos m) d ltac:(lia)) as DM. pose proof (Z.mod_pos_bound (100 * Z.pos m) d D) as MB.
    set (q := (100 * Z.pos m / d)%Z) in *. set (r := ((100 * Z.pos m) mod d)%Z) in *.
    assert (0 <= q)%Z by nia.
    assert (q <= 100000)%Z by nia.
    assert (q = 100000 -> r = 0)%Z by nia.
    destruct (2 * r ?= d)%Z eqn:C; [apply Z.compare_eq in C|idtac|apply Z.compare_gt_iff in C]; [|lia|].
    + destruct (Z.even q); [lia|]. assert (q <> 100000)%Z by (intros X; lia). lia.
    + assert (q <> 100000)%Z by (intros X; lia). lia.
Qed.
Lemma round2_money x : in_range x -> exists z, money (round2 x) z /\ (Z.abs z <= 100000)%Z.
Proof.
  destruct x as [s|s| |s m e]; cbn [in_range round2]; try contradiction.
  - intros _. exists 0%Z. split; [|lia]. split; [unfold moderate; lia|]. exists s. split; [reflexivity|]. split; lia.
  - intros H. apply round_bound in H. set (n := round_half_even _ _) in *. exists (if s then - n else n)%Z.
    split; [|destruct s; lia]. split; [unfold moderate; destruct s; lia|]. exists s.
    split; [f_equal; destruct s; lia|]. split; intros ->; lia.
Qed.
Lemma demo_total s i d : draw_ok d -> exists z, request_total (demo_next s i d) z /\ (Z.abs z <= 500000)%Z.
Proof.
  intros (_ & _ & F).
  assert (forall l, Forall in_range l -> exists zs, Forall2 money (map round2 l) zs /\ (Z.abs (total zs) <= 100000 * Z.of_nat (List.length l))%Z) as X.
  { induction 1 as [|x l H _ (zs & F2 & B)]; [exists []; split; [constructor|reflexivity]|]. destruct (round2_money x H) as (z & M & Bz).
    exists (z :: zs). split; [now constructor|]. cbn [total fold_right List.length] in *. fold (total zs). lia. }
  destruct (X _ F) as (zs & F2 & B). exists (total zs). split; [|cbn [List.length] in B; lia]. exists zs. split; [exact F2|reflexivity].
Qed.

(** ** The requests *)
Definition demo_request (s : sigsys) (draws : nat -> draw) (i : nat) : request :=
  match i with O => demo_first s (draws O) | S _ => demo_next s (N.of_nat i) (draws i) end.
Lemma demo_requests_map s n draws : (1 <= n)%nat -> demo_requests s n draws = map (demo_request s draws) (List.seq 0 n).
Proof.
  intros L. destruct n as [|n]; [lia|]. unfold demo_requests. replace (S n - 1)%nat with n by lia. cbn [List.seq map demo_request]. f_equal.
  apply map_ext_in. intros i H. apply in_seq in H. destruct i; [lia|reflexivity].
Qed.
Lemma map_seq_at {A} (f : nat -> A) k n l1 x l2 : map f (List.seq k n) = l1 ++ x :: l2 ->
  x = f (k + List.length l1)%nat /\ (List.length l1 < n)%nat /\ l1 = map f (List.seq k (List.length l1)).
Proof.
  revert k n. induction l1 as [|y l1 IH]; intros k n H; destruct n as [|n]; cbn [List.seq map app] in H; try discriminate.
  - injection H as <- _. cbn [List.length]. rewrite Nat.add_0_r. split; [reflexivity|]. split; [lia|reflexivity].
  - injection H as <- H. apply IH in H as (E & L & M). cbn [List.length List.seq map]. split; [rewrite E; f_equal; lia|]. split; [lia|]. now f_equal.
Qed.
Lemma request_parts s draws i : q_sys (demo_request s draws i) = s /\ q_time (demo_request s draws i) = d_time (draws i)
  /\ q_id (demo_request s draws i) = pad5 (N.of_nat i).
Proof. destruct i; cbn [demo_request demo_first demo_next q_sys q_time q_id]; auto. Qed.
Lemma demo_request_total s draws i : draw_ok (draws i) -> exists z, request_total (demo_request s draws i) z /\ (Z.abs z <= 500000)%Z.
Proof.
  intros H. destruct i as [|i]; [|now apply demo_total]. exists 0%Z. split; [|lia]. exists [0; 0; 0; 0; 0]%Z. split; [|reflexivity].
  assert (money (S754_zero false) 0) by (split; [unfold moderate; lia|]; exists false; split; [reflexivity|split; lia]).
  cbn [demo_request demo_first q_a q_b q_c q_d q_e]. repeat (constructor; [assumption|]). constructor.
Qed.
Lemma demo_turnover s draws l z : (forall i, draw_ok (draws i)) -> requests_turnover (map (demo_request s draws) l) z ->
  (Z.abs z <= 500000 * Z.of_nat (List.length l))%Z.
Proof.
  intros D (cs & F & ->). revert cs F. induction l as [|i l IH]; intros cs F; inversion F as [|q c l' cs' H F']; subst; [cbn; lia|].
  specialize (IH cs' F'). cbn [total fold_right List.length]. fold (total cs').
  assert (Z.abs c <= 500000)%Z; [|lia]. destruct H as [[_ ->]|[_ H]]; [lia|].
  destruct (demo_request_total s draws i (D i)) as (z & H' & B). apply total_cents in H, H'. rewrite H in H'. apply Ok_inj in H'. now subst.
Qed.
Lemma demo_ids w b n : ids_new w b (map (fun i => pad5 (N.of_nat i)) (List.seq 0 n)).
Proof.
  destruct b; cbn [ids_new].
  - apply FinFun.Injective_map_NoDup; [|apply seq_NoDup]. intros i j H. apply pad5_inj in H. lia.
  - generalize 0%nat as k. induction n as [|n IH]; intros k; [exact I|]. cbn [List.seq map increasing]. split; [|apply IH].
    destruct n as [|n]; [exact I|]. cbn [List.seq map]. apply pad5_lt. lia.
Qed.

Lemma demo_orderly w ks b s n draws : (1 <= n)%nat -> (Z.of_nat n <= 10 ^ 13)%Z -> (forall i, draw_ok (draws i)) -> steady draws ->
  (exists z m p, s = SignatureSystemWorking z m p) -> device_ok w s -> device_known w (fromKeyStore ks) s ->
  orderly w 8 b (batch_requests ks [Batch None [] (demo_requests s n draws)]).
Proof.
  intros L1 L2 D C W O K.
  assert (map fst (batch_requests ks [Batch None [] (demo_requests s n draws)]) = map (demo_request s draws) (List.seq 0 n)) as E.
  { unfold batch_requests. cbn [flat_map b_cert b_requests]. rewrite app_nil_r, map_map. cbn [fst]. rewrite map_id. now apply demo_requests_map. }
  unfold orderly. cbv zeta. rewrite E. split; [|split; [|split; [|split; [|split]]]].
  - unfold batch_requests. cbn [flat_map b_cert b_requests]. rewrite app_nil_r. apply Forall_map. cbn [fst snd verifier_of].
    rewrite demo_requests_map by exact L1. apply Forall_map, Forall_forall. intros i _. destruct (request_parts s draws i) as (Es & Et & Ei).
    unfold request_ok. rewrite Es, Et, Ei. destruct (D i) as (V & Y & _). split; [apply pad5_identifier|]. split; [exact V|]. split; [exact Y|].
    split; [destruct (demo_request_total s draws i (D i)) as (z & H & _); eauto|]. now split.
  - intros q r X. destruct n as [|n]; [lia|]. cbn [List.seq map demo_request] in X. injection X as <- _.
    split; [exact W|]. split; [|split; reflexivity]. unfold zero_request, is_zero. cbn [demo_first q_a q_b q_c q_d q_e].
    repeat (constructor; [eexists; reflexivity|]). constructor.
  - intros l1 p q l2 X. pose proof X as X'. apply map_seq_at in X' as (Ep & _ & _).
    change (l1 ++ p :: q :: l2) with (l1 ++ [p] ++ q :: l2) in X. rewrite app_assoc in X. apply map_seq_at in X as (Eq & _ & _). subst p q.
    rewrite app_length. cbn [List.length Nat.add]. unfold request_closed.
    destruct (request_parts s draws (List.length l1)) as (-> & -> & _). destruct (request_parts s draws (List.length l1 + 1)) as (-> & -> & _).
    split; [reflexivity|]. rewrite Nat.add_1_r. apply C.
  - intros l1 o p q l2 X NW. exfalso. apply NW. apply map_seq_at in X as (-> & _ & _). unfold works.
    destruct (request_parts s draws (0 + List.length l1)) as (-> & _). exact W.
  - intros l1 q l2 z X _ T. apply map_seq_at in X as (-> & Ll & El).
    remember (List.length l1) as m. rewrite El in T. assert (map (demo_request s draws) (List.seq 0 m) ++ [demo_request s draws (0 + m)]
      = map (demo_request s draws) (List.seq 0 (m + 1))) as Y by (rewrite seq_app, map_app; reflexivity).
    rewrite Y in T. apply demo_turnover in T; [|exact D]. rewrite seq_length in T. unfold counter_fits.
    change (8 * Z.of_nat 8 - 1)%Z with 63%Z. change (2 ^ 63)%Z with 9223372036854775808%Z. change (10 ^ 13)%Z with 10000000000000%Z in L2. lia.
  - rewrite map_map. rewrite (map_ext _ (fun i => pad5 (N.of_nat i))); [apply demo_ids|]. intros i. apply request_parts.
Qed.

(** ** The devices *)
Lemma fmt_x_chars z : (0 <= z)%Z -> Forall (fun c => c < 128 /\ c <> c_dash /\ c <> c_us) (fmt_x z) /\ fmt_x z <> [].
Proof.
  intros P. unfold fmt_x, fmt_base. replace (z <? 0)%Z with false by lia. pose proof (digits_numeral 16 (Z.abs_N z) ltac:(lia)) as D.
  split; [|exact (numeral_nonempty _ _ _ D)]. eapply Forall_impl; [|exact (numeral_digits _ _ _ D)].
  intros c (v & [H H']). unfold c_dash, c_us. lia.
Qed.
Lemma unsigned_fmt z : (0 <= z)%Z -> unsigned_serial (fmt_x z) = fmt_x z.
Proof.
  intros P. destruct (fmt_x_chars z P) as [F _]. unfold unsigned_serial. destruct (fmt_x z) as [|c r]; [reflexivity|].
  apply Forall_inv in F. destruct (N.eqb_spec c c_dash); [lia|reflexivity].
Qed.
Lemma demo_device_spec w ks m : demo_key_stored w ks m ->
  exists s, demo_device w m = Ok s /\ (exists z n p, s = SignatureSystemWorking z n p) /\ device_ok w s /\ device_known w (fromKeyStore ks) s.
Proof.
  destruct m as [priv certText|priv keyId]; cbn [demo_key_stored demo_device].
  - intros (c & pub & -> & KP & H). cbn [bind]. eexists. split; [reflexivity|]. split; [eauto|].
    set (z := Z.abs (w_serial w c)) in *. assert (0 <= z)%Z as P by (unfold z; lia). destruct (fmt_x_chars z P) as [F N0].
    assert (py_int w 16 (fmt_x z) = Some z) as PI by (apply py_int_fmt; lia).
    assert (lit "AT77" <> lit "AT0") as NE by discriminate.
    rewrite Forall_forall in F. split.
    + unfold device_ok. cbn [sys_zda sys_serial]. split; [|split; [|split; [|split]]].
      * exists (lit "AT77"), (@nil N). split; [reflexivity|]. split; [now left|]. right. exists 65, 84, 55, [55].
        split; [reflexivity|]. unfold letter, digit19. repeat split; try lia. constructor; [|constructor]. unfold digit. exists 7. reflexivity.
      * apply encodes_ascii. repeat constructor.
      * right. split; [exact NE|]. exists (fmt_x z). split; [left; now exists z|]. split; [|now left]. intros X. apply F in X. lia.
      * intros X. apply F in X. lia.
      * apply encodes_ascii, Forall_forall. intros x X. apply F in X. lia.
    + unfold device_known. cbn [sys_zda sys_serial fromKeyStore v_cert v_store]. split; [discriminate|].
      intros z0 n p E. injection E as _ _ <-. exists pub. split; [exact KP|]. exists ks. split; [reflexivity|]. right. split; [exact NE|].
      left. exists (fmt_x z). split; [|exact H]. exists z. rewrite (unsigned_fmt z P). now split.
  - intros (T & U & En & pub & KP & H). eexists. split; [reflexivity|]. split; [eauto|]. split.
    + unfold device_ok. cbn [sys_zda sys_serial]. split; [|split; [|split; [|split; [exact U|exact En]]]].
      * exists (lit "AT0"), (@nil N). split; [reflexivity|]. split; [now left|]. left. reflexivity.
      * apply encodes_ascii. repeat constructor.
      * left. split; [reflexivity|exact T].
    + unfold device_known. cbn [sys_zda sys_serial fromKeyStore v_cert v_store]. split; [discriminate|].
      intros z0 n p E. injection E as _ _ <-. exists pub. split; [exact KP|]. exists ks. split; [reflexivity|]. left. now split.
Qed.

Theorem demo_accepted w ks b key a draws n k : hash_ok w -> aes_ok w -> pem_ok w ->
  demo_key_stored w ks (da_mode a) -> demo_aes_key (da_key a) k -> py_int w 10 (da_num a) = Some n -> (1 <= n <= 10 ^ 13)%Z ->
  (forall i, draw_ok (draws i)) -> steady draws -> key = None \/ key = Some k ->
  exists dep reg ids, demo w a draws = Ok (Some dep)
    /\ verifyDEP w (load dep) ks key (new_cluster b) None = (Cluster [reg] (fold_left used_add ids (used_new b)), None)
    /\ List.length ids = Z.to_nat n /\ forall i id, nth_error ids i = Some id -> numbered_id i id.
Proof.
  intros HO AO PO SK (kb & EK1 & EK2 & LK) PN [B1 B2] D C HK. destruct (demo_device_spec w ks (da_mode a) SK) as (s & Es & W & O & K).
  unfold demo. rewrite Es. cbn [bind]. rewrite PN. cbn [bind]. replace (n <? 1)%Z with false by lia. rewrite EK1. cbn [bind]. rewrite EK2. cbn [bind].
  assert (1 <= Z.to_nat n)%nat as L1 by lia.
  pose proof (demo_orderly w ks b s (Z.to_nat n) draws L1 ltac:(lia) D C W O K) as OR.
  set (bs := [Batch None [] (demo_requests s (Z.to_nat n) draws)]) in *.
  destruct (register_accepted w ks b key (lit "PIGGYBANK-007") k 8 (CashReg (lit "PIGGYBANK-007") None 0 k 8) bs [] HO AO PO)
    as (g' & gs & dep & reg & A1 & A2 & A3 & _); try exact OR; try assumption.
  - split; [discriminate|]. split; [vm_compute; intuition discriminate|]. apply encodes_ascii. repeat constructor.
  - reflexivity.
  - intros x c [<-|[]] [X|X]; [discriminate|destruct X].
  - right. exists (Batch None [] (demo_requests s (Z.to_nat n) draws)). split; reflexivity.
  - constructor.
  - unfold bs, batch_requests, demo_requests. discriminate.
  - change (new_cashreg (lit "PIGGYBANK-007") None 0 k 8) with (Ok (CashReg (lit "PIGGYBANK-007") None 0 k 8)). cbn [bind].
    unfold bs in A1. cbn [issue_groups b_requests b_cert b_chain] in A1.
    destruct (issue_all w _ (demo_requests s (Z.to_nat n) draws)) as [g1 [l|e]]; [|discriminate].
    cbn [bind] in A1. injection A1 as <- <-. cbn [snd bind]. unfold single_group. rewrite A2. cbn [bind].
    exists dep, reg, (map (fun i => pad5 (N.of_nat i)) (List.seq 0 (Z.to_nat n))). split; [reflexivity|].
    assert (map (fun qv => q_id (fst qv)) (batch_requests ks bs) = map (fun i => pad5 (N.of_nat i)) (List.seq 0 (Z.to_nat n))) as EI.
    { unfold bs, batch_requests. cbn [flat_map b_cert b_requests]. rewrite app_nil_r, map_map. cbn [fst]. rewrite demo_requests_map by exact L1.
      rewrite map_map. apply map_ext. intros i. apply request_parts. }
    rewrite EI in A3. split; [exact A3|]. rewrite map_length, seq_length. split; [reflexivity|].
    intros i id X. rewrite nth_error_map in X. destruct (nth_error (List.seq 0 (Z.to_nat n)) i) as [j|] eqn:Ej; [|discriminate].
    cbn [option_map] in X. apply Some_inj in X. subst id.
    assert (j = i); [|subst; apply pad5_numbered]. assert (i < Z.to_nat n)%nat as Li by (rewrite <- (seq_length (Z.to_nat n) 0); apply nth_error_Some; now rewrite Ej).
    rewrite (nth_error_nth' _ 0%nat) in Ej by (now rewrite seq_length). apply Some_inj in Ej. rewrite seq_nth in Ej by exact Li. lia.
Qed.
