(** Faulty second receipts. *)
From Coq Require Import Lia Floats.SpecFloat.
From Verif Require Import PyBase World Codec CodecFacts PyFloat PyTime Algo Receipt SpecReceipt ListFacts Json KeyStore State VerifyReceipt DepParser Verify DepExport
  SpecDep SpecCluster SpecAmount CashReg SpecCashReg CashRegFacts Override SpecOverride OverrideFacts OverrideCaught
  ExampleWorld ExampleDep ExampleDiag ExampleCashReg ExampleRemote.
Open Scope N_scope.

Definition ex_over_first := Eval vm_compute in issue_all toy_world ex_g0 [ex_q1].
Definition ex_over_g : cashreg := Eval vm_compute in fst ex_over_first.
Definition ex_over_recs : list rtuple := Eval vm_compute in match snd ex_over_first with Ok l => l | Err _ => [] end.
Definition ex_over_texts : list str := Eval vm_compute in
  match mapM (fun r : rtuple => toJWSString (fst r) (snd r)) ex_over_recs with Ok l => l | Err _ => [] end.
Definition ex_over_text (o : override) : option str :=
  match issue_over toy_world ex_over_g (lit "R1") o ex_q3 with
  | (_, Ok r) => match toJWSString r (lit "R1") with Ok t => Some t | Err _ => None end
  | _ => None
  end.
Definition ex_over_why (o : override) : option exn :=
  match ex_over_text o with Some t => ex_why (ex_over_texts ++ [t]) | None => None end.

(** The same ID as before, another register, another system, another time, another
    chaining value, another counter, another sum, another signature, another serial *)
Definition ex_overrides : list override :=
  [only_id (lit "1"); only_register (lit "REG-2"); only_device (lit "AT0") (lit "U:ATU12345678-K1"); only_time (lit "2017-01-31T09:59:59");
   only_chain (b64encode (repeat 0 8)); only_counter 7; only_sum (lit "7,50"); only_signature (b64url_nopad [1; 2; 3]); only_serial (lit "5b")].
Example ex_over_whys : map ex_over_why (no_override :: ex_overrides)
  = None :: map Some [DuplicateReceiptId (lit "1"); ChangingRegisterId (lit "2"); ChangingSystemType (lit "2"); DecreasingDate (lit "2");
     ChainingError (lit "2"); InvalidTurnoverCounter (lit "2"); InvalidTurnoverCounter (lit "2"); InvalidSignature (lit "2"); CertSerialMismatch (lit "2")].
Proof. vm_compute. reflexivity. Qed.

(** The hypotheses are met by all of them. *)
Local Ltac cases E l := cbn [app] in E;
  repeat (destruct l as [|? l]; cbn [app] in E;
    [first [discriminate E | injection E; clear E; intros; subst]|first [discriminate E | injection E as <- E]]).
Lemma ex_over_orderly : orderly toy_world 8 B_unique ([(ex_q1, fromCert ex_cert)] ++ [(ex_q3, fromCert ex_cert)]).
Proof.
  destruct ex_orderly3 as (A & B & C & D & E & _). split; [exact A|]. split; [exact B|]. split; [exact C|]. split; [exact D|]. split; [exact E|].
  cbn [ids_new map app fst]. change (NoDup [lit "1"; lit "2"]). repeat (constructor; [cbn; intros H; repeat destruct H as [H|H]; try discriminate H; exact H|]). constructor.
Qed.

Definition ex_over_rec (o : override) : option receipt := match issue_over toy_world ex_over_g (lit "R1") o ex_q3 with (_, Ok r) => Some r | _ => None end.
Definition ex_other_signature := Eval vm_compute in
  match issue_over toy_world ex_over_g (lit "R1") (only_signature (b64url_nopad [1; 2; 3])) ex_q3 as x
    return (match snd x with Ok _ => receipt | Err _ => unit end) with (_, Ok r) => r | (_, Err _) => tt end.

Lemma ex_injected : let inj := injected toy_world B_unique (Some ex_key) ex_over_g [ex_q1] ex_q3 (fromCert ex_cert) in
  (forall r, inj r (only_id (lit "1")) (DuplicateReceiptId (lit "1")))
  /\ (forall r, inj r (only_register (lit "REG-2")) (ChangingRegisterId (lit "2")))
  /\ (forall r, inj r (only_device (lit "AT0") (lit "U:ATU12345678-K1")) (ChangingSystemType (lit "2")))
  /\ (forall r, inj r (only_time (strftime (Dt 2017 1 31 9 59 59))) (DecreasingDate (lit "2")))
  /\ (forall r, inj r (only_chain (b64encode (repeat 0 8))) (ChainingError (lit "2")))
  /\ (forall r, inj r (only_counter 7) (InvalidTurnoverCounter (lit "2")))
  /\ (forall r, inj r (only_sum (fmt_sum (float_of_cents false 750))) (InvalidTurnoverCounter (lit "2")))
  /\ inj ex_other_signature (only_signature (b64url_nopad [1; 2; 3])) (InvalidSignature (lit "2"))
  /\ (forall r, inj r (only_serial (lit "5b")) (CertSerialMismatch (lit "2"))).
Proof.
  intros inj. unfold inj. repeat match goal with |- _ /\ _ => split end; intros.
  - apply j_id; [reflexivity|now apply ex_identifier|now left].
  - change (lit "2") with (q_id ex_q3). apply j_register; [discriminate| |discriminate].
    split; [discriminate|]. split; [intros H; repeat (destruct H as [H|H]; [discriminate H|]); exact H|]. exists (lit "REG-2"). reflexivity.
  - change (lit "2") with (q_id ex_q3). apply j_system; [discriminate| | |].
    + split; [|split; [|split; [|split]]].
      * exists (lit "AT0"), (@nil N). split; [reflexivity|]. split; [now left|]. now left.
      * exists (lit "AT0"). reflexivity.
      * left. split; [reflexivity|]. apply FieldFacts.key_id_spec. vm_compute. auto.
      * cbn. unfold c_us. intuition discriminate.
      * exists (lit "U:ATU12345678-K1"). reflexivity.
    + split; [now left|]. intros z n priv [= <- <- <-]. exists [7]. split; [apply toy_key_pair|reflexivity].
    + intros [H _]. specialize (H eq_refl). discriminate H.
  - change (lit "2") with (q_id ex_q3). apply (j_time _ _ _ _ _ _ _ _ (Dt 2017 1 31 9 59 59) ex_q1 []); [reflexivity| |cbn; lia|].
    + unfold valid_dt. cbn [dt_year dt_month dt_day dt_hour dt_min dt_sec]. split; [lia|]. split; [lia|].
      split; [exists 31; unfold days_in_month; split; [cbn; intuition lia|lia]|]. lia.
    + vm_compute. intuition discriminate.
  - change (lit "2") with (q_id ex_q3). apply j_chain; [discriminate|reflexivity|vm_compute; repeat constructor| |].
    + intros (cb & E & H). vm_compute in E. apply Ok_inj in E. subst cb. vm_compute in H. discriminate H.
    + intros [H|[]]. discriminate H.
  - change (lit "2") with (q_id ex_q3). apply (j_counter _ _ _ _ _ _ _ _ 7 150); [discriminate|split; reflexivity|exact (ex_total (lit "2") 1 false 150 ex_works false false ltac:(lia))| |vm_compute; discriminate].
    vm_compute. split; [discriminate|reflexivity].
  - change (lit "2") with (q_id ex_q3). apply (j_sum _ _ _ _ _ _ _ _ _ 150 750); [discriminate|split; reflexivity| | | | |discriminate].
    + intros H. apply Forall_inv in H. destruct H as [? H]. discriminate H.
    + intros [? H]. discriminate H.
    + exact (ex_total (lit "2") 1 false 150 ex_works false false ltac:(lia)).
    + exact (ex_total (lit "2") 1 false 750 ex_works false false ltac:(lia)).
  - change (lit "2") with (q_id ex_q3). apply (j_signature _ _ _ _ _ _ _ _ _ [1; 2; 3] [7]); [do 3 eexists; reflexivity|reflexivity|vm_compute; repeat constructor|vm_compute; discriminate|reflexivity|].
    intros (pb & sg & sb & E & S & D & V). vm_compute in S. apply Some_inj in S. subst sg. vm_compute in E. apply Ok_inj in E. subst pb.
    destruct D as [_ D]. vm_compute in D. apply Ok_inj in D. subst sb. vm_compute in V. discriminate V.
  - change (lit "2") with (q_id ex_q3). apply (j_serial _ _ _ _ _ _ _ _ _ ex_cert); [reflexivity|discriminate| |].
    + split; [exact (proj1 (proj1 (ex_device ex_works (or_introl eq_refl))))|]. split; [exists (lit "AT1"); reflexivity|]. split.
      * right. split; [discriminate|]. exists (lit "5b"). split; [left; exists 91%Z; reflexivity|]. split; [|now left]. cbn. unfold c_dash. intuition discriminate.
      * split; [cbn; unfold c_us; intuition discriminate|]. exists (lit "5b"). reflexivity.
    + intros [(z & E & H)|(z & E & H)]; vm_compute in E; [|discriminate E]. apply Some_inj in E. subst z. vm_compute in H. discriminate H.
Qed.

(** With another serial and no certificate, no key is found. *)
Definition ex_other_serial := Eval vm_compute in
  match issue_over toy_world ex_over_g (lit "R1") (only_serial (lit "5b")) ex_q3 as x
    return (match snd x with Ok _ => receipt | Err _ => unit end) with (_, Ok r) => r | (_, Err _) => tt end.
Lemma ex_injected_key : injected toy_world B_unique (Some ex_key) ex_over_g [ex_q1] ex_q3 (fromKeyStore ex_ks) ex_other_serial (only_serial (lit "5b")) (NoPublicKey (lit "2")).
Proof.
  change (lit "2") with (q_id ex_q3). apply j_key; [do 3 eexists; reflexivity|reflexivity| |].
  - split; [exact (proj1 (proj1 (ex_device ex_works (or_introl eq_refl))))|]. split; [exists (lit "AT1"); reflexivity|]. split.
    + right. split; [discriminate|]. exists (lit "5b"). split; [left; exists 91%Z; reflexivity|]. split; [|now left]. cbn. unfold c_dash. intuition discriminate.
    + split; [cbn; unfold c_us; intuition discriminate|]. exists (lit "5b"). reflexivity.
  - intros k (ks & Ek & H). injection Ek as <-. destruct H as [(C & _)|(_ & [(i & (z & E & ->) & H)|(_ & i & (z & E & ->) & H)])].
    + discriminate C.
    + vm_compute in E. apply Some_inj in E. subst z. vm_compute in H. discriminate H.
    + vm_compute in E. discriminate E.
Qed.

(** One of them, with the DEP, and whatever follows *)
Definition ex_dup_text : str := Eval vm_compute in match ex_over_text (only_id (lit "1")) with Some t => t | None => [] end.
Definition ex_dup_gs (rest : list str) : list group := [Group (ex_over_texts ++ ex_dup_text :: rest) (Some ex_cert) []].
Lemma ex_over_caught rest : Forall (fun t => exists b, utf8_encode t = Ok b) rest ->
  exists c', verifyDEP toy_world (ex_dep_of_texts1 (ex_over_texts ++ ex_dup_text :: rest)) ex_ks (Some ex_key) (new_cluster B_unique) None
    = (c', Some (DuplicateReceiptId (lit "1"))).
Proof.
  intros F. destruct (issue_over toy_world ex_over_g (lit "R1") (only_id (lit "1")) ex_q3) as [g' [r|]] eqn:Eo; [|exfalso; vm_compute in Eo; discriminate Eo].
  assert (toJWSString r (lit "R1") = Ok ex_dup_text) as J. { vm_compute in Eo. injection Eo as _ <-. vm_compute. reflexivity. }
  apply (injected_caught toy_world ex_ks B_unique (Some ex_key) (lit "REG-1") ex_key 8 ex_g0 [(ex_q1, fromCert ex_cert)] ex_q3 (fromCert ex_cert) (only_id (lit "1"))
    ex_over_g ex_over_recs ex_over_texts g' r ex_dup_text (ex_dup_gs rest) _ (map (fun t => (t, fromCert ex_cert)) rest) _ toy_hash_ok toy_aes_ok).
  - split; [discriminate|]. split; [intros [X|[X|[X|[X|[X|[]]]]]]; discriminate X|]. exists (lit "REG-1"). reflexivity.
  - reflexivity.
  - reflexivity.
  - now right.
  - exact ex_over_orderly.
  - vm_compute. reflexivity.
  - vm_compute. reflexivity.
  - exact Eo.
  - exact J.
  - exact (proj1 ex_injected r).
  - eexists _, _. split; [reflexivity|]. split; [reflexivity|]. constructor; [apply ex_group_is|constructor].
  - unfold texts_encodable, dep_texts, ex_dup_gs. cbn [flat_map gr_texts gr_cert]. rewrite app_nil_r. apply Forall_map. cbn [fst].
    apply Forall_app. split; [constructor; [eexists; vm_compute; reflexivity|constructor]|]. constructor; [eexists; vm_compute; reflexivity|exact F].
  - left. cbn. constructor; [|constructor]. exists ex_cert. split; [reflexivity|].
    exists [], ex_cert, []. split; [reflexivity|]. split; [exists ex_cert; split; reflexivity|].
    split; [|intros y k []]. intros [|? [|? ?]] a b l2 E; discriminate E.
  - unfold dep_texts, ex_dup_gs. cbn [flat_map gr_texts gr_cert]. rewrite app_nil_r, map_app. reflexivity.
Qed.

(** ** Chaining after overridden signatures *)

(** An outage feigned by the outage marker as signature, and the same outage with a
    broken device; the receipt after it *)
Definition ex_q4 : request := ex_q (lit "3") 2 false 10 ex_broken false false.
Definition ex_feigned : request := ex_q (lit "2") 1 false 150 ex_broken false false.
Definition ex_fe := Eval vm_compute in issue_all_over toy_world ex_g0 [(ex_q1, no_override); (ex_q3, only_signature marker); (ex_q4, no_override)].
Definition ex_fe_texts : list str := Eval vm_compute in
  match snd ex_fe with Ok l => match mapM (fun r : rtuple => toJWSString (fst r) (snd r)) l with Ok l => l | Err _ => [] end | Err _ => [] end.
Definition ex_fe_recs : list rtuple := Eval vm_compute in match snd ex_fe with Ok l => l | Err _ => [] end.
Lemma ex_feigned_orderly : orderly toy_world 8 B_unique (map (fun q => (q, fromCert ex_cert)) [ex_q1; ex_feigned; ex_q4]).
Proof.
  unfold orderly. rewrite map_map. cbn [fst]. rewrite map_id.
  split; [|split; [|split; [|split; [|split]]]].
  - apply Forall_map. cbn [fst snd].
    repeat (constructor; [apply ex_request_ok; [now apply ex_identifier|lia|lia|now (left + right)]|]). constructor.
  - intros q r E. injection E as <- _. now apply ex_plain.
  - intros l1 p q l2 E. cases E l1. all: split; [split; discriminate|reflexivity].
  - intros l1 o p q l2 E W1. cases E l1. all: exfalso; apply W1; do 3 eexists; reflexivity.
  - intros l1 q l2 z E _ T%turnover_calc. rewrite T. clear T z. cases E l1. all: vm_compute; split; [discriminate|reflexivity].
  - cbn [ids_new map]. repeat (constructor; [cbn; intros H; repeat destruct H as [H|H]; try discriminate H; exact H|]). constructor.
Qed.
Definition ex_fe_end := Eval vm_compute in fst (verifyDEP toy_world (ex_dep_of_texts1 ex_fe_texts) ex_ks (Some ex_key) (new_cluster B_unique) None).
Definition ex_fe_mid := Eval vm_compute in fst (verifyDEP toy_world (ex_dep_of_texts1 (firstn 2 ex_fe_texts)) ex_ks (Some ex_key) (new_cluster B_unique) None).
Lemma feigned_outage : exists w ks k g q1 q2 q3 broken v g' recs texts dep2 dep c2 c,
  hash_ok w /\ aes_ok w /\ new_cashreg (cr_id g) None 0 k 8 = Ok g
  /\ orderly w 8 B_unique [(q1, v); (with_sys q2 broken, v); (q3, v)]
  /\ issue_all_over w g [(q1, no_override); (q2, only_signature marker); (q3, no_override)] = (g', Ok recs)
  /\ mapM (fun r : rtuple => toJWSString (fst r) (snd r)) recs = Ok texts
  /\ (exists gs, dep_is w dep gs /\ dep_texts ks gs = combine texts [v; v; v])
  /\ (exists gs, dep_is w dep2 gs /\ dep_texts ks gs = combine (firstn 2 texts) [v; v])
  /\ verifyDEP w dep2 ks (Some k) (new_cluster B_unique) None = (c2, None)
  /\ verifyDEP w dep ks (Some k) (new_cluster B_unique) None = (c, Some (ChainingError (q_id q3))).
Proof.
  exists toy_world, ex_ks, ex_key, ex_g0, ex_q1, ex_q3, ex_q4, ex_broken, (fromCert ex_cert), (fst ex_fe), ex_fe_recs, ex_fe_texts,
    (ex_dep_of_texts1 (firstn 2 ex_fe_texts)), (ex_dep_of_texts1 ex_fe_texts), ex_fe_mid, ex_fe_end.
  split; [exact toy_hash_ok|]. split; [exact toy_aes_ok|]. split; [reflexivity|]. split; [exact ex_feigned_orderly|].
  split; [vm_compute; reflexivity|]. split; [vm_compute; reflexivity|].
  split. { exists [Group ex_fe_texts (Some ex_cert) []]. split; [|reflexivity]. eexists _, _. split; [reflexivity|]. split; [reflexivity|]. constructor; [apply ex_group_is|constructor]. }
  split. { exists [Group (firstn 2 ex_fe_texts) (Some ex_cert) []]. split; [|reflexivity]. eexists _, _. split; [reflexivity|]. split; [reflexivity|]. constructor; [apply ex_group_is|constructor]. }
  split; vm_compute; reflexivity.
Qed.
