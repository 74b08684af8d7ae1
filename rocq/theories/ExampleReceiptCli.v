(** receipt.py and verify_receipt.py in the toy world. *)
From Verif Require Import PyBase World Codec CodecFacts2 Receipt DepBase Json KeyStore VerifyReceipt State Verify DepExport Url StateCli ReceiptCli SpecReceipt ReceiptFacts RoundTrip RoundTrip2 VerifyFacts SpecDep
  SpecConvert SpecReceiptCli ReceiptCliFacts ExampleWorld ExampleReceipts ExampleDep ExampleInc ExampleExport ExampleKeys ExampleCli ExampleConvert.
Open Scope N_scope.
Open Scope py_scope.

(** Three receipts, the last one of a failed device *)
Definition ex_three : list str := [ex_t1; ex_t2; ex_t3].
Definition ex_rs : list receipt := Eval vm_compute in map (fun t => rec_of (fromJWSString toy_world t)) ex_three.
Lemma ex_one_line : Forall2 (one_line toy_world) ex_three ex_rs.
Proof.
  assert (forall t r, In t ex_texts -> fromJWSString toy_world t = Ok (r, lit "R1") -> one_line toy_world t r) as K.
  { intros t r I H. pose proof ex_tabular as F. rewrite Forall_forall in F. destruct (F t I) as (C & r' & R & _ & Nl). split; [exact C|].
    apply parse_reads in H as [_ H]. pose proof (reads_fun _ _ _ _ H R). subst r'. split; [exact H|exact Nl]. }
  unfold ex_three, ex_rs. repeat (apply Forall2_cons; [apply K; [cbn [In ex_texts]; tauto|vm_compute; reflexivity]|]). apply Forall2_nil.
Qed.

(** No network at all, or one that knows one URL *)
Definition ex_offline (s : str) : result str := Err PyException.
Definition ex_url : str := Eval vm_compute in lit "http://x/" ++ ex_hash.
Definition ex_online (s : str) : result str := if str_eqb s ex_url then Ok ex_code else Err PyException.

Definition ex_lines (f : format) : list str := map (fun r => text_of (print_receipt toy_world f r (lit "R1"))) ex_rs.
Definition ex_qrs : list str := Eval vm_compute in ex_lines F_qr.
Definition ex_ocrs : list str := Eval vm_compute in ex_lines F_ocr.
Definition ex_csvs : list str := Eval vm_compute in ex_lines F_csv.
Lemma ex_given_qr py : Forall2 (given toy_world py ex_offline F_qr) ex_rs ex_qrs.
Proof. unfold ex_rs, ex_qrs. repeat (apply Forall2_cons; [vm_compute; reflexivity|]). apply Forall2_nil. Qed.
Lemma ex_safe : Forall (fun r => csv_safe toy_world (r_fields r)) ex_rs.
Proof.
  assert (forallb (fun r => forallb (field_okb toy_world) (csv_fields (r_fields r))) ex_rs = true) as H by (vm_compute; reflexivity).
  apply Forall_forall. intros r R. rewrite forallb_forall in H. specialize (H r R). rewrite forallb_forall in H. apply Forall_forall. intros s S. apply field_okb_ok, H, S.
Qed.
Lemma ex_given_csv py : Forall2 (given toy_world py ex_offline F_csv) ex_rs ex_csvs.
Proof.
  assert (Forall2 (fun r s => toCSV r (lit "R1") = Ok s) ex_rs ex_csvs) as F by (unfold ex_rs, ex_csvs; repeat (apply Forall2_cons; [vm_compute; reflexivity|]); apply Forall2_nil).
  pose proof ex_safe as S. revert S F. generalize ex_rs ex_csvs. intros l m S F. induction F as [|r s l m H F IH]; constructor; [split; [exact H|now inversion S]|apply IH; now inversion S].
Qed.
Lemma ex_given_jws py : Forall2 (given toy_world py ex_offline F_jws) ex_rs ex_three.
Proof. unfold ex_rs, ex_three. repeat (apply Forall2_cons; [vm_compute; reflexivity|]). apply Forall2_nil. Qed.

Lemma ex_url_receipt : one_line toy_world ex_t2 ex_t2_receipt /\ given toy_world Py3 ex_online F_url ex_t2_receipt ex_url /\ hashed toy_world F_url ex_t2_receipt ex_url.
Proof.
  split; [|split].
  - pose proof ex_one_line as F. inversion F as [|? ? ? ? _ F2]; subst. inversion F2; subst. assumption.
  - split; [split; intros H; vm_compute in H; repeat (destruct H as [H|H]; [discriminate H|]); exact H|].
    split; [split; intros c t E|].
    + injection E as <- _. reflexivity.
    + apply (f_equal (fun l => last l 0)) in E. rewrite last_last in E. vm_compute in E. subst c. reflexivity.
    + exists ex_code. split; vm_compute; reflexivity.
  - exists ex_hash. split; vm_compute; reflexivity.
Qed.

(** The reports *)
Lemma ex_report : verify_receipt_py toy_world Py3 ex_offline F_csv ex_store (V_stdin (lines_text ex_csvs))
    = ([(2%nat, SignatureSystemFailed (lit "3"))], Ok (2%nat, 3%nat))
  /\ verify_receipt_py toy_world Py3 ex_online F_url ex_store (V_argument ex_url) = ([], Ok (1%nat, 1%nat)).
Proof. split; vm_compute; reflexivity. Qed.

(** Line feeds *)
Lemma feeds_converted : exists w t r out e, fromJWSString w t = Ok (r, lit "R1")
  /\ (forall py fetch, receipt_py w py fetch F_jws F_qr (lines_text [t]) = (out, None))
  /\ (forall py fetch, receipt_py w py fetch F_qr F_jws out = ([], Some e)).
Proof.
  exists toy_world, ex_t1_nl, (rec_of (fromJWSString toy_world ex_t1_nl)), (fst (receipt_py toy_world Py3 ex_offline F_jws F_qr (lines_text [ex_t1_nl]))). eexists.
  split; [vm_compute; reflexivity|]. split; intros; vm_compute; reflexivity.
Qed.

(** A line that is no receipt: receipt.py does not go on; verify_receipt.py counts it,
    even if it is blank. *)
Definition ex_gap : str := Eval vm_compute in lines_text [ex_t1; []; ex_t2].
Lemma ex_stops : (exists e, receipt_py toy_world Py3 ex_offline F_jws F_jws ex_gap = (lines_text [ex_t1], Some e))
  /\ exists e, verify_receipt_py toy_world Py3 ex_offline F_jws ex_store (V_stdin ex_gap) = ([(1%nat, e)], Ok (2%nat, 3%nat)).
Proof. split; eexists; vm_compute; reflexivity. Qed.

(** Lone surrogates, and URLs that cannot be read *)
Lemma ex_ends : (exists s, verify_receipt_py toy_world Py3 ex_offline F_jws ex_store (V_argument s) = ([], Err PyUnicodeEncodeError))
  /\ verify_receipt_py toy_world Py3 ex_online F_url ex_store (V_stdin (lines_text [ex_url; lit "http://y/"; ex_url])) = ([], Err PyException).
Proof. split; [exists [55296; c_dot; c_dot]|]; vm_compute; reflexivity. Qed.

(** A DEP that is accepted, with a receipt that is reported *)
Lemma ex_devices : snd (verifyDEP toy_world ex_dep1 ex_ks (Some ex_key) ex_start None) = None
  /\ verify_receipt_py toy_world Py3 ex_offline F_jws ex_store (V_stdin (lines_text [ex_t1; ex_t2; ex_t3; ex_t4]))
     = ([(2%nat, SignatureSystemFailed (lit "3"))], Ok (3%nat, 4%nat)).
Proof. split; vm_compute; reflexivity. Qed.

(** Line breaks of both kinds *)
Lemma ex_breaks : given_lines (V_stdin ([65; 13; c_nl; 66; 13] ++ [c_nl; c_nl; 67])) [[65]; [66]; []; [67]].
Proof.
  assert (forall l, forallb (fun c => negb (c =? c_nl) && negb (c =? 13)) l = true -> single_line l) as S.
  { intros l H. rewrite forallb_forall in H. split; intros X; apply H in X; discriminate X. }
  cbn [given_lines app]. apply (lines_next [65] [13; c_nl]); [now apply S|right; now left|]. apply (lines_next [66] [13; c_nl]); [now apply S|right; now left|].
  apply (lines_next [] [c_nl]); [now apply S|now left|]. apply lines_last; [discriminate|now apply S].
Qed.
