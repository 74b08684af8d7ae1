(** C10: amounts are computed exactly in spite of floating point arithmetic. *)
From Coq Require Import Floats.SpecFloat.
From Verif Require Import PyBase World Regex Codec PyFloat PyTime Algo Receipt DepBase Json KeyStore
  VerifyReceipt State DepParser Verify SpecReceipt ReceiptFacts SpecDep SpecCluster SpecAmount AmountFacts
  ExampleWorld ExampleReceipts ExampleDep.
Open Scope Z_scope.

(** Every receipt the constructor builds carries five amounts, determined by their texts. *)
Theorem C10_printed w f r : mk_of w f = Ok r -> exists! zs, printed_amounts w r zs.
Proof.
  intros [W R]%mk_receipt_spec. destruct (printed_exists w f None r W R) as [zs P]. exists zs. split; [exact P|].
  intros zs' P'. exact (printed_unique w r zs zs' P P').
Qed.
Print Assumptions C10_printed.

(** The number of cents the verifier computes is their sum, if none exceeds 10^14 cents. *)
Theorem C10_exact w f r zs : mk_of w f = Ok r -> printed_amounts w r zs -> Forall moderate zs ->
  cents r = Ok (total zs).
Proof. intros [_ R]%mk_receipt_spec. exact (cents_exact w f None r zs R). Qed.
Print Assumptions C10_exact.

(** The same for the receipts read from JWS texts *)
Theorem C10_exact_jws w s r zs : reads w s r -> printed_amounts w r zs -> Forall moderate zs ->
  cents r = Ok (total zs).
Proof. exact (reads_cents w s r zs). Qed.
Print Assumptions C10_exact_jws.

(** A receipt counts as zero receipt exactly if all printed amounts are zero, however long. *)
Theorem C10_zero w f r zs : mk_of w f = Ok r -> printed_amounts w r zs -> isNull r = true <-> Forall (eq 0) zs.
Proof. intros [_ R]%mk_receipt_spec. exact (null_exact w f None r zs R). Qed.
Print Assumptions C10_zero.

(** 999999999999,99 + 0,01 - 0,50 + 0,10 + 0,20 *)
Definition ex_sums (a b c d e : str) : fields :=
  Fields (lit "AT0") (lit "REG-1") (lit "7") (lit "2016-02-29T12:00:59") a b c d e
    (lit "AAECAwQFBgc=") (lit "U:ATU12345678-K1") (lit "CAkKCwwNDg8=").
Definition rec1 (m : result receipt) : receipt := match m with Ok r => r | Err _ => blank end.
Definition ex_money : receipt := Eval vm_compute in
  rec1 (mk_of toy_world (ex_sums (lit "999999999999,99") (lit "0,01") (lit "-0,50") (lit "0,10") (lit "0,20"))).
Ltac amount sign euros x y ds :=
  split; [apply FieldFacts.amount_spec; vm_compute; reflexivity|];
  exists sign, euros, x, y, [], ds; split; [reflexivity|]; split; [now left|];
  split; [repeat constructor|]; (now left) || (now right).
Example C10_example :
  mk_of toy_world (ex_sums (lit "999999999999,99") (lit "0,01") (lit "-0,50") (lit "0,10") (lit "0,20")) = Ok ex_money
  /\ printed_amounts toy_world ex_money [99999999999999; 1; -50; 10; 20]
  /\ cents ex_money = Ok 99999999999980.
Proof.
  split; [vm_compute; reflexivity|]. split; [|vm_compute; reflexivity].
  unfold printed_amounts. cbv zeta.
  apply Forall2_cons. { amount (@nil N) (lit "999999999999") 57%N 57%N [9;9;9;9;9;9;9;9;9;9;9;9;9;9]%N. }
  apply Forall2_cons. { amount (@nil N) (lit "0") 48%N 49%N [0;0;1]%N. }
  apply Forall2_cons. { amount [c_dash] (lit "0") 53%N 48%N [0;5;0]%N. }
  apply Forall2_cons. { amount (@nil N) (lit "0") 49%N 48%N [0;1;0]%N. }
  apply Forall2_cons. { amount (@nil N) (lit "0") 50%N 48%N [0;2;0]%N. }
  apply Forall2_nil.
Qed.

(** Without the bound the claim is false: 90071992547409,93 euros are counted as one cent more. *)
Definition ex_rich : receipt := Eval vm_compute in
  rec1 (mk_of toy_world (ex_sums (lit "90071992547409,93") (lit "0,00") (lit "0,00") (lit "0,00") (lit "0,00"))).
Theorem C10_unbounded_refuted : exists w f r zs z,
  mk_of w f = Ok r /\ printed_amounts w r zs /\ cents r = Ok z /\ z <> total zs.
Proof.
  exists toy_world, (ex_sums (lit "90071992547409,93") (lit "0,00") (lit "0,00") (lit "0,00") (lit "0,00")), ex_rich,
    [9007199254740993; 0; 0; 0; 0], 9007199254740994.
  split; [vm_compute; reflexivity|]. split; [|split; [vm_compute; reflexivity|vm_compute; discriminate]].
  unfold printed_amounts. cbv zeta.
  apply Forall2_cons. { amount (@nil N) (lit "90071992547409") 57%N 51%N [9;0;0;7;1;9;9;2;5;4;7;4;0;9;9;3]%N. }
  do 4 (apply Forall2_cons; [amount (@nil N) (lit "0") 48%N 48%N [0;0;0]%N|]).
  apply Forall2_nil.
Qed.
Print Assumptions C10_unbounded_refuted.

(** ** C15 in terms of printed amounts *)
Theorem C15_printed w dep ks k c idx c' : hash_ok w ->
  verifyDEP w dep ks (Some k) c idx = (c', None) ->
  exists before reg after items reg',
    selects c idx before reg after /\ dep_items w ks dep items
    /\ c_regs c' = before ++ reg' :: after
    /\ (forall l1 i l2, items = l1 ++ i :: l2 -> all_moderate w (l1 ++ [i]) -> standard (i_rec i) ->
          exists z, printed_turnover w (l1 ++ [i]) z /\ decrypts w k (i_rec i) (s_counter reg + z))
    /\ (all_moderate w items -> exists z, printed_turnover w items z /\ s_counter reg' = s_counter reg + z).
Proof. exact (counter_printed w dep ks k c idx c'). Qed.
Print Assumptions C15_printed.

(** ** C16 in terms of printed amounts *)
Theorem C16_printed w dep ks key c idx c' : hash_ok w ->
  verifyDEP w dep ks key c idx = (c', None) ->
  exists before reg after items i r,
    selects c idx before reg after /\ dep_items w ks dep items /\ items = i :: r
    /\ (past_of w reg None -> exists zs, printed_amounts w (i_rec i) zs /\ Forall (eq 0) zs).
Proof. exact (start_printed w dep ks key c idx c'). Qed.
Print Assumptions C16_printed.

Example C15_printed_example : verifyDEP toy_world ex_dep ex_ks (Some ex_key) ex_start None = (ex_end, None).
Proof. exact ex_accepted. Qed.
