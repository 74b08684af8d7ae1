(** The demo program in the toy world. *)
From Coq Require Import Floats.SpecFloat Lia.
From Verif Require Import PyBase World Codec PyFloat PyTime Algo Receipt SpecReceipt SpecKeys Json ListFacts Pem KeyStore VerifyReceipt State DepParser Verify DepExport
  SpecDep SpecCluster CashReg SpecCashReg CashRegFacts Demo SpecDemo DemoFacts ExampleWorld ExampleDep ExampleCashReg.
Open Scope N_scope.

(** 1/8, which is rounded down, 1000 and 0.015, which is less than it looks *)
Definition ex_draw (i : nat) : draw :=
  Draw (Dt 2017 1 31 10 0 (if (i <? 3)%nat then N.of_nat i else 3)) (S754_finite false 1 (-3)) (S754_finite true 125 3)
    (float_of_ratio false 15 1000) (S754_zero true) (float_of_cents false 314) (i =? 2)%nat (i =? 3)%nat.
Lemma ex_draw_ok i : draw_ok (ex_draw i).
Proof.
  split; [|split].
  - unfold valid_dt, ex_draw. cbn [d_time dt_year dt_month dt_day dt_hour dt_min dt_sec]. split; [lia|]. split; [lia|].
    split; [exists 31; unfold days_in_month; split; [cbn; intuition lia|lia]|].
    destruct (Nat.ltb_spec i 3); lia.
  - unfold ex_draw. cbn [d_time dt_year]. lia.
  - unfold ex_draw. cbn [d_a d_b d_c d_d d_e]. repeat (constructor; [vm_compute; first [exact I|discriminate]|]). constructor.
Qed.
Lemma ex_steady : steady ex_draw.
Proof. intros [|[|[|i]]]; reflexivity. Qed.

Definition ex_args : demo_args := DemoArgs (DemoOpen [7] (addPEMCertHeaders ex_cert_text)) (b64encode ex_key ++ [c_nl]) (lit " 4 ").
Definition ex_args_closed : demo_args := DemoArgs (DemoClosed [8] (lit "U:ATU12345678-K1")) (b64encode ex_key) (lit "2").
Lemma ex_demo_key : demo_aes_key (da_key ex_args) ex_key.
Proof. eexists. split; [vm_compute; reflexivity|]. split; vm_compute; reflexivity. Qed.
Lemma ex_demo_stored : demo_key_stored toy_world ex_ks (da_mode ex_args) /\ demo_key_stored toy_world ex_ks (da_mode ex_args_closed).
Proof.
  split.
  - exists ex_cert, [7]. split; [vm_compute; reflexivity|]. split; [apply toy_key_pair|]. vm_compute. reflexivity.
  - cbn [da_mode ex_args_closed demo_key_stored]. split; [|split; [|split]].
    + exists (lit "U:ATU12345678"). split; [right; left; exists (lit "ATU12345678"); repeat split; vm_compute; (reflexivity || lia)|].
      split; [vm_compute; intuition discriminate|]. right. right. exists (lit "K1"). split; reflexivity.
    + vm_compute. intuition discriminate.
    + apply encodes_ascii. repeat constructor.
    + exists [8]. split; [apply toy_key_pair|reflexivity].
Qed.
Lemma ex_demo_accepted : exists dep c, demo toy_world ex_args ex_draw = Ok (Some dep)
  /\ verifyDEP toy_world (load dep) ex_ks (Some ex_key) (new_cluster B_natural) None = (c, None)
  /\ map s_counter (c_regs c) = [- 199346]%Z /\ c_used c = Natural (Some (lit "00000")) (Some (lit "00003")).
Proof. do 2 eexists. split; [vm_compute; reflexivity|]. split; [vm_compute; reflexivity|]. split; vm_compute; reflexivity. Qed.

(** The clock goes back at the end of summer time. *)
Definition ex_summer (i : nat) : draw :=
  Draw (match i with O => Dt 2017 10 29 2 59 59 | _ => Dt 2017 10 29 2 0 0 end) (S754_zero false) (S754_zero false)
    (S754_zero false) (S754_zero false) (S754_zero false) false false.
Lemma ex_summer_ok i : draw_ok (ex_summer i).
Proof.
  split; [|split].
  - unfold valid_dt, ex_summer. destruct i; cbn [d_time dt_year dt_month dt_day dt_hour dt_min dt_sec];
      (split; [lia|]; split; [lia|]; split; [exists 31; unfold days_in_month; split; [cbn; intuition lia|lia]|lia]).
  - unfold ex_summer. destruct i; cbn [d_time dt_year]; lia.
  - unfold ex_summer. cbn [d_a d_b d_c d_d d_e]. repeat (constructor; [exact I|]). constructor.
Qed.
Lemma demo_clock : exists w ks a draws k dep cl, hash_ok w /\ aes_ok w /\ pem_ok w /\ demo_key_stored w ks (da_mode a) /\ demo_aes_key (da_key a) k
  /\ py_int w 10 (da_num a) = Some 2%Z /\ (forall i, draw_ok (draws i))
  /\ demo w a draws = Ok (Some dep) /\ verifyDEP w (load dep) ks (Some k) (new_cluster B_unique) None = (cl, Some (DecreasingDate (lit "00001"))).
Proof.
  exists toy_world, ex_ks, ex_args_closed, ex_summer, ex_key. do 2 eexists. split; [exact toy_hash_ok|]. split; [exact toy_aes_ok|]. split; [exact toy_pem_ok|].
  split; [apply ex_demo_stored|]. split; [eexists; split; [vm_compute; reflexivity|split; vm_compute; reflexivity]|].
  split; [vm_compute; reflexivity|]. split; [exact ex_summer_ok|]. split; [vm_compute; reflexivity|]. vm_compute. reflexivity.
Qed.
