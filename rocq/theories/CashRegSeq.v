(** The receipts of a cash register that is used according to the rules form a
    valid DEP. *)
From Coq Require Import Lia ZifyClasses ZifyN ZifyNat ZifyBool.
From Verif Require Import PyBase World ListFacts Codec CodecFacts PyFloat PyTime Algo AlgoFacts Receipt SpecReceipt FieldFacts ReceiptFacts RoundTrip Json Pem KeyStore State
  DepBase DepParser Verify DepExport VerifyReceipt VerifyFacts SpecDep SpecCluster SpecDoc SpecKeys SpecMerge SpecExport SeqFacts StepFacts DepFacts AcceptFacts IncTheorems ExportFacts SplitFacts
  FloatFacts AmountFacts SpecAmount CashReg SpecCashReg CashRegText CashRegFacts.
Open Scope N_scope.
Open Scope py_scope.

Definition next_reg (g : cashreg) (q : request) (z : Z) (jws : str) : cashreg := with_last (with_counter g (counter_after g q z)) jws.

Fixpoint run (w : world) (g : cashreg) (l : list (request * verifier)) (items : list item) (g' : cashreg) : Prop :=
  match l, items with
  | [], [] => g' = g
  | (q, v) :: l', i :: items' =>
      i_ver i = v /\ exists z, request_total q z /\ issued w g v q z (i_jws i) (i_rec i)
        /\ run w (next_reg g q z (i_jws i)) l' items' g'
  | _, _ => False
  end.

Lemma reads_nonempty w s r : reads w s r -> s <> [].
Proof. intros (f & sg & (h & p & hb & pb & gb & -> & _) & _) E. apply (f_equal (@List.length N)) in E. rewrite !app_length in E. cbn in E. lia. Qed.

Lemma next_ok w g q v z jws r : register_ok g -> issued w g v q z jws r -> register_ok (next_reg g q z jws).
Proof.
  intros (A & B & C & _) I. split; [exact A|]. split; [exact B|]. split; [exact C|]. intros s E. cbn in E. injection E as <-.
  split; [exact (reads_nonempty w _ _ (is_reads _ _ _ _ _ _ _ I))|]. eexists. exact (reads_encodes w _ _ (is_reads _ _ _ _ _ _ _ I)).
Qed.

Definition q_amount (q : request) (c : Z) : Prop := (q_dummy q = true /\ c = 0%Z) \/ (q_dummy q = false /\ request_total q c).

Lemma turnover_cons q l c z : q_amount q c -> requests_turnover l z -> requests_turnover (q :: l) (c + z).
Proof. intros A (cs & F & ->). exists (c :: cs). split; [now constructor|reflexivity]. Qed.
Lemma turnover_one q c : q_amount q c -> requests_turnover [q] c.
Proof. intros A. replace c with (c + 0)%Z by lia. apply turnover_cons; [exact A|]. exists []. split; [constructor|reflexivity]. Qed.

Lemma after_amount g q z : request_total q z -> exists c, q_amount q c /\ counter_after g q z = (cr_counter g + c)%Z.
Proof.
  intros T. unfold counter_after, q_amount. destruct (q_dummy q); [exists 0%Z|exists z]; split; auto; lia.
Qed.

Lemma issue_all_run w l : hash_ok w -> aes_ok w -> forall g, register_ok g ->
  Forall (fun qv => request_ok w (snd qv) (fst qv)) l ->
  (forall l1 q l2 z, map fst l = l1 ++ q :: l2 -> standard_request q -> requests_turnover (l1 ++ [q]) z ->
     counter_fits (cr_size g) (cr_counter g + z)) ->
  exists items g', issue_all w g (map fst l) = (g', Ok (map (fun i => (i_rec i, lit "R1")) items)) /\ run w g l items g'.
Proof.
  intros Hh Ha. induction l as [|[q v] l IH]; intros g G F C.
  - exists [], g. split; reflexivity.
  - inversion F as [|? ? Q F']; subst. cbn [fst snd] in Q. assert (exists z, request_total q z) as [z T] by apply Q.
    destruct (after_amount g q z T) as (c & Ac & Ec).
    destruct (issue_ok w v g q z Hh Ha G Q T) as (jws & rec & E & I).
    { intros Sd. rewrite Ec. apply (C [] q (map fst l)); [reflexivity|exact Sd|]. now apply turnover_one. }
    destruct (IH (next_reg g q z jws) (next_ok w g q v z jws rec G I) F') as (items & g' & E' & R).
    { intros l1 q' l2 z' El Sd T'. cbn [cr_size next_reg with_last with_counter cr_counter]. rewrite Ec.
      rewrite <- Z.add_assoc. apply (C (q :: l1) q' l2); [cbn [map fst app]; now rewrite El|exact Sd|]. now apply turnover_cons. }
    exists (Item jws rec v :: items), g'. split.
    + cbn [map fst issue_all]. rewrite E. fold (next_reg g q z jws). rewrite E'. reflexivity.
    + cbn [run]. split; [reflexivity|]. exists z. auto.
Qed.

(** What holds of each receipt *)
Definition fits_request (w : world) (g : cashreg) (qv : request * verifier) (i : item) : Prop :=
  exists g0 z, cr_id g0 = cr_id g /\ i_ver i = snd qv /\ request_total (fst qv) z /\ issued w g0 (snd qv) (fst qv) z (i_jws i) (i_rec i).

Lemma run_each w l : forall g items g', run w g l items g' -> Forall2 (fits_request w g) l items.
Proof.
  induction l as [|[q v] l IH]; intros g [|i items] g' R; try contradiction; constructor.
  - destruct R as (V & z & T & I & R). exists g, z. auto.
  - destruct R as (V & z & T & I & R). exact (IH _ _ _ R).
Qed.

Lemma run_chained w l : forall g items g' p, run w g l items g' -> option_map fst p = cr_last g ->
  Forall (chained w) (linked p items).
Proof.
  induction l as [|[q v] l IH]; intros g [|i items] g' p R E; try contradiction; cbn [linked]; constructor.
  - destruct R as (V & z & T & I & R). unfold chained. cbn [fst snd]. pose proof (is_chain _ _ _ _ _ _ _ I) as Ch.
    unfold chained_to in Ch. rewrite <- E in Ch. destruct p as [[s r]|]; cbn [option_map fst] in Ch; [exact Ch|].
    rewrite (is_register _ _ _ _ _ _ _ I). exact Ch.
  - destruct R as (V & z & T & I & R). apply (IH _ _ _ (Some (i_jws i, i_rec i)) R). reflexivity.
Qed.

Definition i_amount (i : item) (c : Z) : Prop :=
  (training (i_rec i) /\ c = 0%Z) \/ (~ training (i_rec i) /\ cents (i_rec i) = Ok c).
Lemma items_cons i l c z : i_amount i c -> turnover l z -> turnover (i :: l) (c + z).
Proof. intros A (cs & F & ->). exists (c :: cs). split; [now constructor|reflexivity]. Qed.
Lemma items_one i c : i_amount i c -> turnover [i] c.
Proof. intros A. replace c with (c + 0)%Z by lia. apply items_cons; [exact A|]. exists []. split; [constructor|reflexivity]. Qed.

Lemma issued_amount w g v q z i : request_total q z -> issued w g v q z (i_jws i) (i_rec i) ->
  exists c, i_amount i c /\ q_amount q c /\ counter_after g q z = (cr_counter g + c)%Z.
Proof.
  intros T I. pose proof (is_training _ _ _ _ _ _ _ I) as Tr. pose proof (is_cents _ _ _ _ _ _ _ I) as Ce. unfold i_amount, q_amount, counter_after.
  destruct (q_dummy q).
  - exists 0%Z. split; [left; split; [now apply Tr|reflexivity]|]. split; [auto|lia].
  - exists z. split; [right; split; [intros H; apply Tr in H; discriminate|exact Ce]|]. split; [auto|lia].
Qed.

Lemma issued_standard w g v q z s r : issued w g v q z s r -> standard r <-> standard_request q.
Proof.
  intros I. unfold standard, standard_request. rewrite (is_training _ _ _ _ _ _ _ I), (is_cancellation _ _ _ _ _ _ _ I).
  destruct (q_dummy q), (q_reversal q); intuition congruence.
Qed.

Lemma run_counter w l : forall g items g', run w g l items g' ->
  cr_key g' = cr_key g /\ (exists z, turnover items z /\ requests_turnover (map fst l) z /\ cr_counter g' = (cr_counter g + z)%Z)
  /\ forall l1 i l2, items = l1 ++ i :: l2 -> standard (i_rec i) ->
      exists z, turnover (l1 ++ [i]) z /\ decrypts w (cr_key g) (i_rec i) (cr_counter g + z).
Proof.
  induction l as [|[q v] l IH]; intros g [|i items] g' R; try contradiction.
  - cbn in R. subst. split; [reflexivity|]. split.
    + exists 0%Z. split; [exists []; split; [constructor|reflexivity]|]. split; [exists []; split; [constructor|reflexivity]|lia].
    + intros l1 i l2 E. destruct l1; discriminate E.
  - destruct R as (V & z & T & I & R). destruct (issued_amount w g v q z i T I) as (c & Ai & Aq & Ec).
    destruct (IH _ _ _ R) as (K & (y & Ti & Tq & Ey) & D). cbn [cr_key cr_counter next_reg with_last with_counter] in *. rewrite Ec in *.
    split; [exact K|]. split.
    + exists (c + y)%Z. split; [now apply items_cons|]. split; [now apply turnover_cons|lia].
    + intros l1 i' l2 E Sd. destruct l1 as [|j l1].
      * cbn [app] in E. injection E as <- <-. exists c. split; [now apply items_one|]. rewrite <- Ec.
        apply (is_counter _ _ _ _ _ _ _ I). now apply (issued_standard _ _ _ _ _ _ _ I).
      * cbn [app] in E. injection E as <- ->. destruct (D l1 i' l2 eq_refl Sd) as (x & Tx & Dx). exists (c + x)%Z.
        split; [cbn [app]; now apply items_cons|]. now rewrite Z.add_assoc.
Qed.

Lemma run_last w l : forall g items g' p, run w g l items g' -> option_map fst p = cr_last g ->
  cr_last g' = option_map fst (last_of p items) /\ cr_id g' = cr_id g.
Proof.
  induction l as [|[q v] l IH]; intros g [|i items] g' p R E; try contradiction.
  - cbn in R. subst. cbn [last_of]. auto.
  - destruct R as (V & z & T & I & R). cbn [last_of]. destruct (IH _ _ _ (Some (i_jws i, i_rec i)) R eq_refl). auto.
Qed.

(** ** The sequence is valid *)
Lemma Forall2_split {A B} (P : A -> B -> Prop) l m1 m2 : Forall2 P l (m1 ++ m2) ->
  exists l1 l2, l = l1 ++ l2 /\ Forall2 P l1 m1 /\ Forall2 P l2 m2.
Proof. intros F. apply Forall2_app_inv_r in F as (l1 & l2 & A1 & A2 & ->). eauto. Qed.

Lemma last_of_some p l : last_of p l = match rev l with [] => p | i :: _ => Some (i_jws i, i_rec i) end.
Proof.
  revert p. induction l as [|i l IH]; intros p; [reflexivity|]. cbn [last_of rev]. rewrite IH. destruct (rev l); reflexivity.
Qed.

Lemma fits_plain w g q v i : fits_request w g (q, v) i -> plain_zero_request q -> plain_zero (i_rec i).
Proof.
  intros (g0 & z & _ & _ & _ & I) (W & Z & Sd). cbn [fst snd] in I. split; [|split].
  - rewrite (is_unsigned _ _ _ _ _ _ _ I). tauto.
  - now apply (is_zero_iff _ _ _ _ _ _ _ I).
  - now apply (issued_standard _ _ _ _ _ _ _ I).
Qed.

Lemma consistent_linked p l : Forall consistent (linked p l) <->
  (forall i r, l = i :: r -> consistent (p, i)) /\
  (forall l1 i j l2, l = l1 ++ i :: j :: l2 -> consistent (Some (i_jws i, i_rec i), j)).
Proof.
  revert p. induction l as [|i l IH]; intros p; cbn [linked].
  - split; [|constructor]. intros _. split; [discriminate|]. intros l1 i j l2 E. destruct l1; discriminate.
  - rewrite Forall_cons_iff, IH. split.
    + intros (A & B & C). split; [intros i' r [= -> ->]; exact A|]. intros l1 i' j l2 E. destruct l1 as [|x l1]; cbn [app] in E; injection E as -> E.
      * exact (B _ _ E).
      * exact (C _ _ _ _ E).
    + intros (A & C). split; [exact (A i l eq_refl)|]. split.
      * intros j r ->. apply (C [] i j r). reflexivity.
      * intros l1 i' j l2 ->. apply (C (i :: l1) i' j l2). reflexivity.
Qed.

Lemma two_neighbours {A B} (P : A -> B -> Prop) l m1 i j m2 : Forall2 P l (m1 ++ i :: j :: m2) ->
  exists l1 a b l2, l = l1 ++ a :: b :: l2 /\ Forall2 P l1 m1 /\ P a i /\ P b j.
Proof.
  intros (l1 & l2 & -> & F1 & F2)%Forall2_split. inversion F2 as [|a ? l2' ? Pa F3]; subst. inversion F3 as [|b ? l3 ? Pb F4]; subst.
  exists l1, a, b, l3. auto.
Qed.

Definition key_given (key : option bytes) (g : cashreg) : Prop := forall k, key = Some k -> k = cr_key g.

Theorem run_valid w b key g l items g' : register_ok g -> cr_last g = None -> cr_counter g = 0%Z -> key_given key g ->
  orderly w (cr_size g) b l -> run w g l items g' ->
  valid_sequence w key None new_register (used_new b) None items.
Proof.
  intros G L0 C0 Ky (Q & St & Nb & Re & _ & Ids) R. pose proof (run_each _ _ _ _ _ R) as E.
  pose proof (run_counter _ _ _ _ _ R) as (_ & _ & Co). unfold valid_sequence. split; [|split; [|split; [|split]]].
  - clear -E. induction E as [|[q v] i l items (g0 & z & _ & V & _ & I) E IH]; constructor; [|exact IH].
    cbn [fst snd] in *. rewrite V. exact (is_authentic _ _ _ _ _ _ _ I).
  - intros i r _ ->. inversion E as [|[q v] ? l' ? Fi E']; subst. split.
    + apply (fits_plain w g q v); [exact Fi|]. apply (St q (map fst l')). reflexivity.
    + intros s p (D & _). discriminate D.
  - split; [discriminate|]. intros l1 i j l2 -> (s & o & Lo & Uo & Ui & Zi). rewrite last_of_some in Lo.
    destruct (rev l1) as [|k rl] eqn:Er; [discriminate|]. injection Lo as <- <-.
    assert (l1 = rev rl ++ [k]) as -> by (rewrite <- (rev_involutive l1), Er; reflexivity).
    rewrite <- app_assoc in E. cbn [app] in E.
    apply Forall2_split in E as (m1 & m2 & -> & E1 & E2). inversion E2 as [|[o' vo] ? m3 ? Fo E3]; subst.
    inversion E3 as [|[p vp] ? m4 ? Fp E4]; subst. inversion E4 as [|[q vq] ? m5 ? Fq E5]; subst.
    apply (fits_plain w g q vq); [exact Fq|].
    rewrite map_app in Re. cbn [map fst] in Re. destruct Fo as (go & zo & _ & _ & _ & Io), Fp as (gp & zp & _ & _ & _ & Ip). cbn [fst snd] in *.
    apply (Re _ _ _ _ _ eq_refl).
    + now apply (is_unsigned _ _ _ _ _ _ _ Io).
    + pose proof (is_unsigned _ _ _ _ _ _ _ Ip) as Up. unfold works in *. destruct (q_sys p) as [z n|z n priv]; [|eauto].
      exfalso. apply Ui, Up. intros (? & ? & ? & X). discriminate X.
    + intros [A B]. apply Zi. split; [now apply (is_zero_iff _ _ _ _ _ _ _ Ip)|now apply (issued_standard _ _ _ _ _ _ _ Ip)].
  - intros k Ek. rewrite (Ky k Ek). split.
    + intros i Ii Nt. split; [apply G|]. apply in_split in Ii as (l1 & l2 & ->).
      apply Forall2_split in E as (m1 & m2 & -> & E1 & E2). inversion E2 as [|[o' vo] ? m3 ? Fo E3]; subst.
      destruct Fo as (go & zo & _ & _ & _ & Io). eexists. exact (is_cents _ _ _ _ _ _ _ Io).
    + intros l1 i l2 El Sd. destruct (Co l1 i l2 El Sd) as (z & T & D). exists z. split; [exact T|].
      cbn [s_counter new_register]. rewrite C0 in D. exact D.
  - intros NE. exists None. split; [now left|]. split; [|split].
    + apply consistent_linked. split; [intros i r _ s p [=]|].
      intros l1 i j l2 El. rewrite El in E. apply two_neighbours in E as (m1 & [p vp] & [q vq] & m2 & -> & _ & Fp & Fq).
      destruct Fp as (gp & zp & Gp & _ & _ & Ip), Fq as (gq & zq & Gq & _ & _ & Iq). cbn [fst snd] in *.
      intros s r [= <- <-]. cbn [snd i_rec]. rewrite map_app in Nb. cbn [map fst] in Nb. destruct (Nb _ _ _ _ eq_refl) as [Cl Ti].
      split; [|split].
      * rewrite (is_register _ _ _ _ _ _ _ Ip), (is_register _ _ _ _ _ _ _ Iq). congruence.
      * unfold closed. rewrite (is_zda _ _ _ _ _ _ _ Ip), (is_zda _ _ _ _ _ _ _ Iq). exact Cl.
      * rewrite (is_time _ _ _ _ _ _ _ Ip), (is_time _ _ _ _ _ _ _ Iq). exact Ti.
    + pose proof (run_chained _ _ _ _ _ None R (eq_sym L0)) as Ch. unfold chain_rule. destruct items as [|i items]; [exact I|].
      cbn [linked] in Ch. inversion Ch as [|? ? C1 C2]; subst. split; [exact C1|exact C2].
    + assert (ids items = map q_id (map fst l)) as ->.
      { clear -E. induction E as [|[q v] i l items (g0 & z & _ & _ & _ & I) E IH]; [reflexivity|]. unfold ids in *. cbn [map fst].
        rewrite IH, (is_id _ _ _ _ _ _ _ I). reflexivity. }
      destruct b; cbn [used_new ids_new is_some] in *.
      * apply fresh_unique. destruct (map q_id (map fst l)); [exact I|]. split; [exact Ids|]. split; [auto|discriminate].
      * apply fresh_natural. split; [exact Ids|]. destruct (map q_id (map fst l)); exact I.
Qed.

(** ** Groups *)
Lemma issue_all_app w a b : forall g g' l, issue_all w g (a ++ b) = (g', Ok l) ->
  exists g1 l1 l2, issue_all w g a = (g1, Ok l1) /\ issue_all w g1 b = (g', Ok l2) /\ l = l1 ++ l2 /\ List.length l1 = List.length a.
Proof.
  induction a as [|q a IH]; intros g g' l E.
  - exists g, [], l. auto.
  - cbn [app issue_all] in *. destruct (issue w g (lit "R1") q) as [g1 [rec|e]]; [|discriminate].
    destruct (issue_all w g1 (a ++ b)) as [g2 rest] eqn:E1. injection E as <- E. apply bind_Ok in E as (l' & -> & E). apply Ok_inj in E. subst l.
    destruct (IH _ _ _ E1) as (g3 & l1 & l2 & E2 & E3 & -> & Le). rewrite E2. exists g3, ((rec, lit "R1") :: l1), l2.
    split; [reflexivity|]. split; [exact E3|]. split; [reflexivity|]. cbn [List.length]. now rewrite Le.
Qed.

Definition batch_group (b : batch) (g : rgroup rtuple) : Prop :=
  rg_cert g = b_cert b /\ rg_chain g = b_chain b /\ List.length (rg_recs g) = List.length (b_requests b).

Lemma issue_groups_flat w bs : forall g g' l, issue_all w g (flat_map b_requests bs) = (g', Ok l) ->
  exists gs, issue_groups w g bs = (g', Ok gs) /\ Forall2 batch_group bs gs /\ flat_map rg_recs gs = l.
Proof.
  induction bs as [|b bs IH]; intros g g' l E; cbn [flat_map issue_groups] in *.
  - cbn [issue_all] in E. injection E as <- <-. exists []. auto.
  - destruct (issue_all_app w _ _ _ _ _ E) as (g1 & l1 & l2 & E1 & E2 & -> & Le). rewrite E1.
    destruct (IH _ _ _ E2) as (gs & E3 & F & <-). rewrite E3. exists (RGroup l1 (b_cert b) (b_chain b) :: gs).
    split; [reflexivity|]. split; [|reflexivity]. constructor; [|exact F]. split; [reflexivity|]. split; [reflexivity|exact Le].
Qed.

Lemma Forall2_len {A B} (P : A -> B -> Prop) l m : Forall2 P l m -> List.length l = List.length m.
Proof. induction 1; cbn [List.length]; congruence. Qed.
Lemma Forall2_app_len {A B} (P : A -> B -> Prop) l1 l2 m1 m2 : Forall2 P (l1 ++ l2) (m1 ++ m2) -> List.length l1 = List.length m1 ->
  Forall2 P l1 m1 /\ Forall2 P l2 m2.
Proof.
  revert m1. induction l1 as [|a l1 IH]; intros [|b m1] F L; try discriminate; [auto|]. cbn [app] in F. inversion F; subst.
  injection L as L. destruct (IH m1 ltac:(assumption) L). auto.
Qed.

Lemma group_items w g ks c (qs : list request) (recs : list rtuple) (ts : list str) items :
  recs = map (fun i => (i_rec i, lit "R1")) items ->
  Forall2 (fun (r : receipt * str) t => toJWSString (fst r) (snd r) = Ok t /\ fromJWSString w t = Ok r) recs ts ->
  Forall2 (fits_request w g) (map (fun q => (q, verifier_of ks c)) qs) items ->
  Forall2 (text_item w) (map (fun s => (s, verifier_of ks c)) ts) items.
Proof.
  intros ->. revert qs ts. induction items as [|i items IH]; intros qs ts F E.
  - inversion F; subst. constructor.
  - cbn [map] in F. inversion F as [|? t ? ts' [Et Er] F']; subst. destruct qs as [|q qs]; [inversion E|]. cbn [map] in E.
    inversion E as [|? ? ? ? Ei E']; subst. cbn [map]. constructor; [|exact (IH qs ts' F' E')].
    destruct Ei as (g0 & z & _ & V & _ & I). cbn [fst snd] in *. rewrite (is_jws _ _ _ _ _ _ _ I) in Et. apply Ok_inj in Et. subst t.
    split; [reflexivity|]. split; [exact (is_reads _ _ _ _ _ _ _ I)|exact V].
Qed.

Lemma batches_items w g ks bs gs gs' : Forall2 batch_group bs gs -> Forall2 (written w) gs gs' -> forall items,
  flat_map rg_recs gs = map (fun i => (i_rec i, lit "R1")) items ->
  Forall2 (fits_request w g) (batch_requests ks bs) items -> Forall2 (text_item w) (dep_texts ks gs') items.
Proof.
  intros B. revert gs'. induction B as [|b rg bs gs (Bc & Bh & Bl) B IH]; intros gs' W items Er E.
  - inversion W; subst. destruct items; [constructor|discriminate].
  - inversion W as [|? g' ? gs'' (Wr & Wc & Wh) W']; subst. cbn [flat_map] in Er. symmetry in Er. apply map_eq_app in Er as (i1 & i2 & -> & E1 & E2).
    unfold batch_requests in E. cbn [flat_map] in E. apply Forall2_app_len in E as [F1 F2].
    2: { rewrite map_length, <- Bl, <- E1, map_length. reflexivity. }
    unfold dep_texts. cbn [flat_map]. apply Forall2_app.
    + rewrite Wc, Bc. eapply group_items; [symmetry; exact E1|exact Wr|exact F1].
    + exact (IH _ W' _ (eq_sym E2) F2).
Qed.

Lemma batches_trust w ks bs gs gs' : Forall2 batch_group bs gs -> Forall2 (written w) gs gs' ->
  batches_trusted w ks bs -> trust_rule w ks (occupied gs').
Proof.
  intros B W.
  assert (Forall2 (fun b g => gr_cert g = b_cert b /\ gr_chain g = b_chain b)
            (filter (fun b => match b_requests b with [] => false | _ => true end) bs) (occupied gs')) as F.
  { revert gs' W. induction B as [|b rg bs gs (Bc & Bh & Bl) B IH]; intros gs' W; inversion W as [|? g' ? gs'' (Wr & Wc & Wh) W']; subst; [constructor|].
    unfold occupied. cbn [filter]. assert (List.length (b_requests b) = List.length (gr_texts g')) as Le by (rewrite <- Bl; exact (Forall2_len _ _ _ Wr)).
    destruct (b_requests b), (gr_texts g'); try discriminate Le; [exact (IH _ W')|]. constructor; [|exact (IH _ W')].
    split; congruence. }
  intros [T|(b & E & N)].
  - left. revert T. induction F as [|b g bs' gs'' [Ec Eh] F IH]; intros T; [constructor|]. inversion T as [|? ? (c & C & Tr) T']; subst.
    constructor; [|exact (IH T')]. exists c. rewrite Ec, Eh. auto.
  - right. rewrite E in F. inversion F as [|? g ? ? [Ec Eh] F']; subst. inversion F'; subst. exists g. split; [reflexivity|congruence].
Qed.

Theorem register_accepted w ks b key id k size g bs extra : hash_ok w -> aes_ok w -> pem_ok w ->
  identifier id -> List.length k = 32%nat -> new_cashreg id None 0 k size = Ok g ->
  key = None \/ key = Some k ->
  batch_certs_loaded w bs -> batches_trusted w ks bs -> extra_ok extra ->
  batch_requests ks bs <> [] -> orderly w size b (batch_requests ks bs) ->
  exists g' gs dep reg',
    issue_groups w g bs = (g', Ok gs)
    /\ export w (gs, None) extra = Ok dep
    /\ verifyDEP w (load dep) ks key (new_cluster b) None
       = (Cluster [reg'] (fold_left used_add (map (fun qv => q_id (fst qv)) (batch_requests ks bs)) (used_new b)), None)
    /\ requests_turnover (map fst (batch_requests ks bs)) (cr_counter g')
    /\ s_last reg' = cr_last g'
    /\ (key <> None -> s_counter reg' = cr_counter g').
Proof.
  intros Hh Ha Hp Id Lk New Ky Lo Tr Ex NE Or.
  unfold new_cashreg in New. destruct (negb _) eqn:Sz in New; [|discriminate]. apply Ok_inj in New. subst g.
  set (g := CashReg id None 0 k size).
  assert (register_ok g) as G. { split; [exact Id|]. split; [exact Lk|]. split; [cbn; lia|]. intros s [=]. }
  pose proof Or as (Q & _ & _ & _ & Co & _).
  destruct (issue_all_run w (batch_requests ks bs) Hh Ha g G Q) as (items & g' & Ei & R). { exact Co. }
  assert (map fst (batch_requests ks bs) = flat_map b_requests bs) as Em.
  { clear. induction bs as [|x bs IH]; [reflexivity|]. unfold batch_requests in *. cbn [flat_map]. rewrite map_app, IH, map_map. f_equal.
    cbn [fst]. apply map_id. }
  rewrite Em in Ei. destruct (issue_groups_flat w bs g g' _ Ei) as (gs & Eg & Bg & Fl).
  pose proof (run_each _ _ _ _ _ R) as E.
  assert (Forall (parsed_group w) gs) as Pg.
  { assert (forall r, In r (flat_map rg_recs gs) -> exists t, fromJWSString w t = Ok r) as A.
    { rewrite Fl. intros r (i & <- & Ii)%in_map_iff. apply in_split in Ii as (l1 & l2 & ->).
      apply Forall2_split in E as (m1 & m2 & _ & _ & E2). inversion E2 as [|? ? ? ? (g0 & z & _ & _ & _ & I) _]; subst.
      exists (i_jws i). apply parse_reads. split; [reflexivity|exact (is_reads _ _ _ _ _ _ _ I)]. }
    unfold batch_certs_loaded in Lo. clear -A Bg Lo. induction Bg as [|b rg bs gs (Bc & Bh & _) B IH]; constructor.
    - split.
      + rewrite Forall_forall. intros r I. apply A. cbn [flat_map]. apply in_or_app. now left.
      + intros c. rewrite Bc, Bh. apply (Lo b c). now left.
    - apply IH.
      + intros x c I. apply (Lo x c). now right.
      + intros r I. apply A. cbn [flat_map]. apply in_or_app. now right. }
  destruct (export_doc w gs extra Hp Pg Ex) as (dep & gs' & Ed & Dd & Wr & _).
  assert (Forall2 (text_item w) (dep_texts ks gs') items) as Ti by exact (batches_items w g ks bs gs gs' Bg Wr items Fl E).
  assert (items <> []) as Ni. { intros ->. inversion E as [X|]. congruence. }
  assert (valid_sequence w key None new_register (used_new b) None items) as V.
  { apply (run_valid w b key g (batch_requests ks bs) items g' G); [reflexivity|reflexivity| |exact Or|exact R]. intros k' E'. destruct Ky as [Ky|Ky]; rewrite Ky in E'; [discriminate|]. injection E' as <-. reflexivity. }
  destruct (run_counter _ _ _ _ _ R) as (_ & (z & Tz & Tq & Ez) & _). cbn in Ez.
  pose proof (run_last _ _ _ _ _ None R eq_refl) as [Ls _].
  set (reg' := match items with [] => new_register | _ => set_last (regs key new_register None items) (option_map fst (last_of None items)) end).
  assert (register_after key new_register None items reg') as Ra.
  { exact (proj2 (register_after_iff _ _ _ _ _ _ _ _ V) eq_refl). }
  exists g', gs, dep, reg'. split; [exact Eg|]. split; [exact Ed|]. split; [|split; [|split]].
  - apply verifyDEP_spec; [exact Hh|]. exists [], new_register, [], reg', None, items. split; [|split; [|split; [|split; [|split]]]].
    + apply sel_new; [now left|now left].
    + exists gs'. split; [now apply load_doc|]. split; [exact (batches_trust w ks bs gs gs' Bg Wr Tr)|]. auto.
    + now left.
    + exact V.
    + exact Ra.
    + cbn [c_used new_cluster app]. f_equal. unfold used_after. f_equal. clear -E.
      induction E as [|[q v] i l items (g0 & z & _ & _ & _ & I) E IH]; [reflexivity|]. unfold ids in *. cbn [map fst].
      rewrite <- IH, (is_id _ _ _ _ _ _ _ I). reflexivity.
  - rewrite Ez. exact Tq.
  - rewrite Ls. unfold reg'. destruct items; [congruence|reflexivity].
  - intros Kn. destruct (exists_last Ni) as (l0 & i & El). destruct Ra as [_ Ra]. destruct (Ra l0 i El) as (_ & _ & _ & _ & _ & _ & _ & Cn).
    destruct (Cn Kn) as (z' & Tz' & ->). cbn [s_counter new_register]. rewrite Ez.
    destruct Tz as (cs & F & ->), Tz' as (cs' & F' & ->). rewrite ?Z.add_0_l.
    clear -F F'. revert cs' F'. induction F as [|i c l cs A F IH]; intros cs' F'; inversion F' as [|? c' ? cs'' A' F'']; subst; [reflexivity|].
    cbn [fold_right]. rewrite (IH _ F''). f_equal. destruct A as [[A ->]|[A B]], A' as [[A' ->]|[A' B']]; try tauto; try reflexivity.
    rewrite B in B'. now apply Ok_inj in B'.
Qed.
