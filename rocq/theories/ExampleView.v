(** Concrete views of receipts. *)
From Coq Require Import Lia ZifyClasses ZifyN ZifyNat ZifyBool Floats.SpecFloat.
From Verif Require Import PyBase World Codec PyFloat PyTime Algo Receipt Json KeyStore CashReg JsonText Gui View ListFacts FieldFacts SpecReceipt ReceiptFacts
  SpecDep SpecAmount SpecCounter CounterFacts SpecGui GuiFacts SpecView ViewFacts ViewRepr VerifyFacts ExampleWorld ExampleReceipts ExampleDep ExampleGui.
Open Scope N_scope.

Definition ex_view_of (t : str) : receipt := match fromJWSString toy_world t with Ok p => fst p | Err _ => ex_receipt end.
Definition ex_v4 : receipt := Eval vm_compute in ex_view_of ex_t4.
Lemma ex_v4_read : reads toy_world ex_t4 ex_v4.
Proof. apply (parse_reads toy_world ex_t4 ex_v4 (lit "R1")). vm_compute. reflexivity. Qed.
Lemma ex_v4_standard : standard ex_v4.
Proof. apply standardb_iff. vm_compute. reflexivity. Qed.
Lemma ex_v4_counter : shows_counter toy_world ex_key ex_v4 350 /\ moderate 350.
Proof.
  split; [apply (decryptTC_spec toy_world ex_t4 ex_v4 ex_key _ toy_hash_ok toy_aes_ok ex_v4_read); vm_compute; reflexivity|].
  unfold moderate. lia.
Qed.
Lemma ex_amount d : In d [0; 2] -> amount_cents toy_world [48 + d; 44; 48; 48] (100 * Z.of_N d).
Proof.
  intros H. split; [apply amount_spec; destruct H as [<-|[<-|[]]]; vm_compute; reflexivity|].
  exists [], [48 + d], 48, 48, [], [d; 0; 0]. split; [reflexivity|]. split; [now left|]. split; [|left; split; [reflexivity|]].
  - destruct H as [<-|[<-|[]]]; repeat constructor.
  - destruct H as [<-|[<-|[]]]; reflexivity.
Qed.
Lemma ex_v4_amounts : printed_amounts toy_world ex_v4 [200; 0; 0; 0; 0]%Z /\ Forall moderate [200; 0; 0; 0; 0]%Z.
Proof.
  split; [|repeat constructor; unfold moderate; lia].
  unfold printed_amounts. cbv zeta. repeat apply Forall2_cons; [apply (ex_amount 2)|apply (ex_amount 0)..|apply Forall2_nil]; cbn; tauto.
Qed.
Lemma ex_key_typed : key_text ex_key_text ex_key.
Proof. split; [exact (proj1 (proj2 ex_gui))|reflexivity]. Qed.
Lemma ex_key_short k : ~ key_text (lit "AAAA") k.
Proof. intros [H L]. apply entered_typed in H. vm_compute in H. apply Ok_inj in H. injection H as <-. discriminate L. Qed.

Definition ex_view : rview := Eval vm_compute in
  match open_view toy_world exact_repr ex_v4 (lit "R1") false with Ok (st, _) => st | Err _ => View [] None [] false B_none end.
Lemma ex_view_open : open_view toy_world exact_repr ex_v4 (lit "R1") false = Ok (ex_view, None)
  /\ v_decrypt ex_view = true /\ v_button ex_view = B_verify.
Proof. split; [vm_compute; reflexivity|]. split; reflexivity. Qed.
Lemma ex_view_faithful : faithful toy_world ex_v4 ex_view.
Proof.
  destruct (opened toy_world exact_repr ex_v4 ex_t4 toy_hash_ok toy_aes_ok exact_prints ex_v4_read false) as (st & err & E & F & _).
  rewrite (proj1 ex_view_open) in E. apply Ok_inj in E. injection E as <- <-. exact F.
Qed.

(** Two counters that look the same *)
Definition ex_big1 := Eval vm_compute in
  ex_signed (ex_rec (lit "2") (lit "2017-01-01T08:00:00") (lit "1,00") (ex_tc (lit "2") 9007199254740992) ex_t1).
Definition ex_big2 := Eval vm_compute in
  ex_signed (ex_rec (lit "2") (lit "2017-01-01T08:00:00") (lit "1,00") (ex_tc (lit "2") 9007199254740993) ex_t1).
Definition ex_big1_view : receipt := Eval vm_compute in ex_view_of ex_big1.
Definition ex_big2_view : receipt := Eval vm_compute in ex_view_of ex_big2.
Lemma view_large : exists w t1 r1 t2 r2 k z, reads w t1 r1 /\ reads w t2 r2 /\ shows_counter w k r1 z /\ shows_counter w k r2 (z + 1)
  /\ forall fr, exists s rows1 rows2, view_rows w fr r1 (lit "R1") (Some k) = Ok rows1 /\ view_rows w fr r2 (lit "R1") (Some k) = Ok rows2
     /\ nth_error rows1 9 = Some s /\ nth_error rows2 9 = Some s.
Proof.
  assert (reads toy_world ex_big1 ex_big1_view) as R1 by (apply (parse_reads toy_world _ _ (lit "R1")); vm_compute; reflexivity).
  assert (reads toy_world ex_big2 ex_big2_view) as R2 by (apply (parse_reads toy_world _ _ (lit "R1")); vm_compute; reflexivity).
  exists toy_world, ex_big1, ex_big1_view, ex_big2, ex_big2_view, ex_key, 9007199254740992%Z.
  split; [exact R1|]. split; [exact R2|].
  split; [apply (decryptTC_spec toy_world _ _ ex_key _ toy_hash_ok toy_aes_ok R1); vm_compute; reflexivity|].
  split; [apply (decryptTC_spec toy_world _ _ ex_key _ toy_hash_ok toy_aes_ok R2); vm_compute; reflexivity|].
  intros fr. eexists _, _, _. split; [vm_compute; reflexivity|]. split; [vm_compute; reflexivity|]. split; reflexivity.
Qed.

(** A file with a JSON array *)
Lemma view_array : exists s, (exists l, readJsonStream s = Some (JList l))
  /\ forall w fr r alg st, v_decrypt st = true -> view_act w fr r alg st (V_load (K_json s)) = (st, Lost PyTypeError).
Proof.
  exists (lit "[]"). split; [exists []; vm_compute; reflexivity|]. intros w fr r alg st D. cbn [view_act]. rewrite D. reflexivity.
Qed.

(** A receipt of the year 999 *)
Definition ex_old := Eval vm_compute in
  ex_signed (ex_rec (lit "2") (lit "0999-01-01T08:00:00") (lit "1,00") (ex_tc (lit "2") 100) ex_t1).
Definition ex_old_view : receipt := Eval vm_compute in ex_view_of ex_old.
Lemma view_old : exists w t r, reads w t r /\ forall fr, exists s rows, view_rows w fr r (lit "R1") None = Ok rows
  /\ nth_error rows 3 = Some s /\ forall d, ~ time_text w s d.
Proof.
  exists toy_world, ex_old, ex_old_view. split; [apply (parse_reads toy_world _ _ (lit "R1")); vm_compute; reflexivity|].
  intros fr. exists (lit "999-01-01T08:00:00"). eexists. split; [vm_compute; reflexivity|]. split; [reflexivity|].
  intros d H. apply strptime_spec in H. vm_compute in H. discriminate H.
Qed.

(** Actions: a short key, a JSON file without key, a JSON file with the key, the
    verification without and with the right key store *)
Definition ex_view_acts : list view_action :=
  [V_type (lit "AAAA"); V_load (K_json (lit "{}")); V_verify [];
   V_load (K_json (lit "{" ++ [34] ++ lit "base64AESKey" ++ [34] ++ lit ": " ++ [34] ++ ex_key_text ++ [34] ++ lit "}")); V_verify ex_ks].
Lemma ex_view_acts_files : Forall object_file ex_view_acts.
Proof. repeat constructor; intros v H; vm_compute in H; injection H as <-; eauto. Qed.
Lemma ex_view_acted : exists st', view_acts toy_world exact_repr ex_v4 (lit "R1") ex_view ex_view_acts = (st', Done tt)
  /\ v_key st' = Some ex_key /\ v_button st' = B_valid.
Proof. eexists. split; [vm_compute; reflexivity|]. split; reflexivity. Qed.

(** An unsigned receipt over nothing *)
Definition ex_null := Eval vm_compute in
  ex_unsigned (ex_rec (lit "2") (lit "2017-01-01T08:00:00") (lit "0,00") (ex_tc (lit "2") 100) ex_t1).
Definition ex_null_view : receipt := Eval vm_compute in ex_view_of ex_null.
Lemma ex_null_open : reads toy_world ex_null ex_null_view
  /\ exists st, open_view toy_world exact_repr ex_null_view (lit "R1") true = Ok (st, Some (UnsignedNullReceipt (lit "2"))) /\ v_button st = B_none.
Proof.
  split; [apply (parse_reads toy_world _ _ (lit "R1")); vm_compute; reflexivity|]. eexists. split; [vm_compute; reflexivity|]. reflexivity.
Qed.

Lemma ex_view_verified : view_act toy_world exact_repr ex_v4 (lit "R1") ex_view (V_verify ex_ks)
    = (View (v_rows ex_view) None [] true B_valid, Done tt)
  /\ view_act toy_world exact_repr ex_v4 (lit "R1") ex_view (V_verify []) = (ex_view, Displayed (NoPublicKey (lit "4"))).
Proof. split; vm_compute; reflexivity. Qed.
Lemma ex_v4_signed : ~ unsigned ex_v4.
Proof. intros H. apply unsignedb_iff in H. vm_compute in H. discriminate H. Qed.

Lemma ex_null_file : object_file (V_load (K_json (lit "{""base64AESKey"": null}"))) /\ gives_none (K_json (lit "{""base64AESKey"": null}")).
Proof.
  assert (readJsonStream (lit "{""base64AESKey"": null}") = Some (JDict [(lit "base64AESKey", JNull)])) as E by (vm_compute; reflexivity). split.
  - intros v H. rewrite E in H. injection H as <-. eauto.
  - eexists. split; [exact E|reflexivity].
Qed.
