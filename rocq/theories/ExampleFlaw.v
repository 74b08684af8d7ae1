(** Tests with flawed certificates in the toy world. *)
From Coq Require Import Floats.SpecFloat Lia ZifyClasses ZifyN ZifyNat ZifyBool.
From Verif Require Import PyBase World Codec CodecFacts PyFloat PyTime Algo Receipt SpecReceipt SpecKeys Json ListFacts Pem KeyStore VerifyReceipt State DepParser Verify DepExport
  SpecDep SpecCluster ClusterFacts SpecChunks SpecAmount SpecDiag CashReg SpecCashReg CashRegFacts Override RunTest SpecRunTest SpecPool SpecState TestVerify SpecTestVerify TestSetup SpecSetup SpecFlaw CertFault FlawFacts
  ParTheorems ExampleWorld ExampleDep ExampleDiag ExampleCashReg ExamplePool ExampleRunTest ExampleTestVerify ExampleSetup ExampleLast SpecDoc ExampleInc ExampleExport.
Open Scope N_scope.
Local Ltac Zify.zify_post_hook ::= Z.div_mod_to_equations.

(** ** A DEP the second group of which has a certificate nobody knows *)
Definition ex_unknown : cert := [1; 9; 7].
Definition ex_cert_gs : list group := [Group [ex_t1] (Some ex_cert) []; Group [ex_t2] (Some ex_unknown) []].
Definition ex_cert_dep : json := ex_dep_of [ex_group ex_cert_text [] [ex_t1]; ex_group (ex_pem1 ex_unknown) [] [ex_t2]].

Lemma ex_unknown_fault : cert_fault toy_world ex_ks ex_unknown [] (UntrustedCertificate (lit "1")).
Proof.
  apply (cf_untrusted toy_world ex_ks ex_unknown []); [|apply signed_in_turn_one].
  intros x k [<-|[]] S. vm_compute in S. discriminate S.
Qed.
Lemma ex_unknown_distrusted : ~ trusted toy_world ex_ks ex_unknown [].
Proof.
  intros (l1 & x & l2 & E & (k & S & _) & _). destruct l1 as [|y [|]]; [|discriminate E|discriminate E]. injection E as <- _. vm_compute in S. discriminate S.
Qed.
Lemma ex_cert_hyps : dep_is toy_world ex_cert_dep ex_cert_gs /\ texts_encodable ex_ks ex_cert_gs
  /\ usual_cluster ex_start /\ selects ex_start None [] new_register [] /\ past_of toy_world new_register None
  /\ occupied ex_cert_gs = [Group [ex_t1] (Some ex_cert) []] ++ Group [ex_t2] (Some ex_unknown) [] :: []
  /\ Forall (fun g => exists x, gr_cert g = Some x /\ trusted toy_world ex_ks x (gr_chain g)) [Group [ex_t1] (Some ex_cert) []]
  /\ exists items, Forall2 (text_item toy_world) (dep_texts ex_ks [Group [ex_t1] (Some ex_cert) []]) items
     /\ valid_sequence toy_world (Some ex_key) None new_register (Unique []) None items.
Proof.
  destruct ex_last_hyps as (_ & _ & _ & A & B & C & _ & _ & items & D & V & _).
  split; [eexists _, _; split; [reflexivity|]; split; [reflexivity|]; constructor; [apply ex_group_is|constructor; [|constructor]]|].
  { eexists _, (JList (map JStr [ex_t2])), (ex_pem1 ex_unknown), []. split; [reflexivity|]. split; [reflexivity|]. split; [now left|].
    split; [reflexivity|]. split; [|split; [reflexivity|constructor]].
    right. split; [vm_compute; discriminate|]. exists ex_unknown. split; [vm_compute; reflexivity|reflexivity]. }
  split; [repeat constructor; eexists; vm_compute; reflexivity|]. split; [exact A|]. split; [exact B|]. split; [exact C|]. split; [reflexivity|].
  split; [|exists items; split; [exact D|exact V]].
  constructor; [|constructor]. exists ex_cert. split; [reflexivity|].
  exists [], ex_cert, []. split; [reflexivity|]. split; [exists ex_cert; split; reflexivity|]. split; [apply signed_in_turn_one|intros y k []].
Qed.
Lemma ex_cert_alike : snd (verifyDEP toy_world ex_cert_dep ex_ks (Some ex_key) ex_start None) = Some (UntrustedCertificate (lit "1"))
  /\ snd (verifyParsedDEP toy_world ex_last_pool (parse_dict toy_world 1 ex_cert_dep 1) ex_ks (Some ex_key) ex_start None) = Some (UntrustedCertificate (lit "1")).
Proof. split; vm_compute; reflexivity. Qed.

Lemma ex_cert_doc : dep_doc toy_world ex_cert_dep ex_cert_gs /\ plain_names ex_cert_dep.
Proof.
  split; [|apply plainb_ok; vm_compute; reflexivity].
  eexists _, _. split; [reflexivity|]. split; [once_at 0%nat|]. constructor; [apply ex_group_doc|]. constructor; [|constructor].
  eexists _, (ex_pem1 ex_unknown), []. split; [reflexivity|]. split; [once_at 2%nat|]. split; [once_at 0%nat|].
  split; [right; split; [vm_compute; discriminate|]; exists ex_unknown; split; [vm_compute; reflexivity|reflexivity]|]. split; [once_at 1%nat|constructor].
Qed.
Lemma ex_cert_inc : snd (verifyParsedDEP toy_world ex_last_pool (parse_inc toy_world P_file ex_cert_dep 1) ex_ks (Some ex_key) ex_start None) = Some (UntrustedCertificate (lit "1")).
Proof. vm_compute. reflexivity. Qed.

(** The key store is empty. *)
Lemma ex_empty_fault : cert_fault toy_world [] ex_cert [] (UntrustedCertificate (lit "5a")).
Proof. apply (cf_untrusted toy_world [] ex_cert []); [intros x k _ S; discriminate S|apply signed_in_turn_one]. Qed.

(** ** Specifications *)

Definition ex_one : list instr :=
  [ex_in (lit "1") 0 0 0 false NO_NEW_DEP None None;
   ex_in (lit "2") 1 1250 0 false NO_NEW_DEP None None;
   ex_in (lit "3") 2 500 0 true NO_NEW_DEP None (Some (float_of_cents false 1750))].
(** A closed system; the certificate is not in the key store. *)
Definition ex_sp_untrusted : tspec := TSpec 1 ex_aes None (lit "REG-1") (lit "U:ATU12345678") true false false None None (Some [true]) None None ex_one.
(** An open system with two certificates between that of the device and the root, the
    second one not signed by the root *)
Definition ex_sp_broken : tspec := TSpec 1 ex_aes None (lit "REG-1") (lit "U:ATU12345678") true false true (Some [2]%Z) None None (Some [2]%Z) None ex_one.
(** An open system with a false root *)
Definition ex_sp_collision : tspec := TSpec 1 ex_aes None (lit "REG-1") (lit "U:ATU12345678") true false false (Some [1]%Z) None None None (Some [true]) ex_one.

Local Ltac cases E l := cbn [app] in E;
  repeat (destruct l as [|? l]; cbn [app] in E;
    [first [discriminate E | injection E; clear E; intros; subst]|first [discriminate E | injection E as <- E]]).
Local Ltac listed := cbn [owners ex_one ex_in in_new in_cont combine of_register filter fst snd map Nat.eqb].
Local Ltac outage := let E := fresh in let l := fresh in let W1 := fresh in let W2 := fresh in intros l ? ? ? ? E W1 W2 _; cases E l;
  first [apply ex_bare_plain | exfalso; apply W1; do 3 eexists; reflexivity | destruct W2 as (? & ? & ? & W2); discriminate W2].
Local Ltac fits := let E := fresh in let T := fresh in let l := fresh in intros l ? ? ? E _ T; apply turnover_calc in T; subst; cases E l; vm_compute; (split; [discriminate|reflexivity]).
Local Ltac each := intros [|[|[|?]]]; listed.

Lemma ex_one_instructions closed : instructions_ok toy_world closed 1 8 B_unique ex_one.
Proof.
  unfold instructions_ok. split; [repeat constructor|]. split.
  { unfold ex_one. cbn [map]. repeat (constructor; [apply ex_bare; [now apply ex_identifier|lia|lia]|]). constructor. }
  split; [do 2 eexists; split; reflexivity|]. split.
  { intros l1 i l2 E N k C. unfold ex_one in E. cases E l1; discriminate N. }
  split; [intros l1 p i l2 o E N; unfold ex_one in E; cases E l1; discriminate N|].
  split; [each; intros ? ? E; first [discriminate E|injection E as <- _; apply ex_bare_plain]|].
  split; [each; let l := fresh in intros l ? ? ? E; cases E l; reflexivity|].
  split; [each; outage|].
  split; [each; fits|].
  split; [each; intros ? ? ? ? E1 E2; try discriminate E1; try discriminate E2|].
  split; [cbn [ids_new]; repeat constructor; cbn; intuition discriminate|].
  intros l1 i l2 t1 o q t2 x E1 En Ex Nx. change (owners 1 0 ex_one) with [0;0;0]%nat. intros E2 L. unfold ex_one in E1.
  cases E1 l1; try discriminate Ex; cbn [in_turnover ex_in] in Ex; injection Ex as <-;
    repeat (destruct t1 as [|? t1]; [first [discriminate L|clear L]|first [discriminate L|injection L as L]]);
    cbn [combine app ex_one map] in E2; injection E2; intros; subst; eexists.
  split; [apply (money_cents false 1750); [reflexivity|discriminate]|]. listed.
  exists [0%Z; 1250%Z; 500%Z]. split; [|reflexivity]. repeat (constructor; [right; split; [reflexivity|]; apply ex_in_total; discriminate|]). constructor.
Qed.

Lemma ex_keys_apart closed n : (n <= 2)%nat -> keys_apart toy_world toy_maker closed (if closed then ex_pub else ex_crt, ex_prv) n.
Proof.
  intros L. assert (forall u, used_purpose n u -> u = P_fake \/ u = P_chain 1 \/ u = P_chain 2) as U.
  { intros [|j|] H; [destruct H| |now left]. cbn [used_purpose] in H. right. destruct j as [|[|[|j]]]; [lia|now left|now right|lia]. }
  split.
  - intros u u' H H' E. destruct (U u H) as [->|[->| ->]], (U u' H') as [->|[->| ->]]; reflexivity || (vm_compute in E; discriminate E).
  - intros p u M H. assert (p = [7]) as ->.
    { destruct closed; unfold material_key in M; cbn [fst] in M; [rewrite ex_pub_loads in M; now apply Ok_inj in M|].
      destruct M as (c & M & ->). rewrite ex_crt_loads in M. apply Ok_inj in M. subst c. reflexivity. }
    destruct (U u H) as [->|[->| ->]]; vm_compute; discriminate.
Qed.

(** Certificates with three bytes have the key in their fingerprint. *)
Lemma toy_fingerprints : fingerprints_apart toy_world toy_maker (ex_crt, ex_prv).
Proof.
  assert (forall c, at_hand toy_world toy_maker (ex_crt, ex_prv) c -> exists x y z, c = [x; y; z] /\ y < 256) as T.
  { intros c [R H]. apply toy_bytes in R. assert (exists x y z, c = [x; y; z]) as (x & y & z & ->).
    { destruct H as [H|(u & p & name & z & s & o & H)]; [cbn [fst] in H; rewrite ex_crt_loads in H|cbn [toy_maker mk_cert] in H]; apply Ok_inj in H; subst c; do 3 eexists; reflexivity. }
    exists x, y, z. split; [reflexivity|]. exact (Forall_inv (Forall_inv_tail R)). }
  intros c c' A A' E. destruct (T c A) as (x & y & z & -> & Ly), (T c' A') as (x' & y' & z' & -> & Ly').
  unfold same_fingerprint in E. cbn [toy_world w_sha256] in E. unfold toy_hash in E. cbn [fold_left toy_mix app] in E.
  cbn [toy_world w_cert_pubkey nth]. apply (f_equal (fun l => nth 6 l 0)) in E. cbn [nth] in E. f_equal. clear - E Ly Ly'. lia.
Qed.

Lemma ex_no_given sp : serials_apart toy_world toy_maker sp true [(ex_pub, ex_prv)].
Proof.
  split; [|split; discriminate].
  intros i u i' u' [L H] [L' H'] E. destruct u as [|j|]; [|destruct H as [H _]; discriminate H|destruct H]. destruct u' as [|j'|]; [|destruct H' as [H' _]; discriminate H'|destruct H'].
  cbn in L, L'. split; [lia|reflexivity].
Qed.
Lemma ex_serials sp z : (0 <= z <= 2)%Z -> ts_length sp = Some [z] -> serials_apart toy_world toy_maker sp false [(ex_crt, ex_prv)].
Proof.
  intros Lz El.
  assert (forall i u, made_for sp false (List.length [(ex_crt, ex_prv)]) i u -> i = 0%nat /\ exists j, u = P_chain j /\ (j = 1 \/ j = 2)%nat) as M.
  { intros i u [L H]. destruct u as [|j|]; [discriminate H| |destruct H]. destruct H as (_ & n & E & Hn). rewrite El in E. cbn [element_at] in E. cbn in L.
    destruct i as [|i]; [|lia]. cbn [nth_error] in E. apply Some_inj in E. subst n. split; [reflexivity|]. exists j. split; [reflexivity|lia]. }
  split; [|split].
  - intros i u i' u' H H' E. destruct (M _ _ H) as (-> & j & -> & J), (M _ _ H') as (-> & j' & -> & J').
    destruct J as [->| ->], J' as [->| ->]; (split; [reflexivity|]); try reflexivity; vm_compute in E; discriminate E.
  - intros _ c i u G H E. apply (ex_given false 1) in G; [subst c|reflexivity]. destruct (M _ _ H) as (-> & j & -> & J). destruct J as [->| ->]; vm_compute in E; discriminate E.
  - intros _ c c' G G' _. apply (ex_given false 1) in G; [|reflexivity]. apply (ex_given false 1) in G'; [|reflexivity]. congruence.
Qed.

Lemma ex_setup_untrusted : flawed_setup toy_world toy_own toy_maker ex_sp_untrusted true (ex_pub, ex_prv) 0 F_untrusted.
Proof.
  split; [exact (ex_material true)|]. do 3 (split; [reflexivity|]). split; [reflexivity|]. split; [split; [reflexivity|now left]|].
  split; [apply ex_no_given|]. split; [intros _; exact ex_company|]. split; [apply (ex_keys_apart true); lia|discriminate].
Qed.
Lemma ex_setup_broken : flawed_setup toy_world toy_own toy_maker ex_sp_broken false (ex_crt, ex_prv) 2 (F_broken 2).
Proof.
  split; [exact (ex_material false)|]. do 3 (split; [reflexivity|]). split; [exists 2%Z; split; reflexivity|].
  split; [split; [reflexivity|]; split; [lia|]; exists false; split; [reflexivity|right; reflexivity]|].
  split; [apply (ex_serials _ 2); [lia|reflexivity]|]. split; [discriminate|]. split; [apply (ex_keys_apart false); lia|discriminate].
Qed.
Lemma ex_setup_collision : flawed_setup toy_world toy_own toy_maker ex_sp_collision false (ex_crt, ex_prv) 1 F_collision.
Proof.
  split; [exact (ex_material false)|]. do 3 (split; [reflexivity|]). split; [exists 1%Z; split; reflexivity|].
  split; [split; [reflexivity|]; split; [reflexivity|]; right; exists 0%Z; reflexivity|].
  split; [apply (ex_serials _ 1); [lia|reflexivity]|]. split; [discriminate|]. split; [apply (ex_keys_apart false); lia|].
  intros _. split; [exact toy_fingerprints|]. intros c _ H. cbn [fst] in H. rewrite ex_crt_loads in H. apply Ok_inj in H. subst c. reflexivity.
Qed.

(** ** The tests pass with the expectations due to them. *)

Lemma ex_expect_class e t : hd [] (classes e) = t -> derived t t -> expects ex_say (ex_expect (Some t) None) (Some e).
Proof. intros E D. split; [exists t; split; [reflexivity|now rewrite E]|]. split; [discriminate|]. split; discriminate. Qed.
Lemma ex_flaw_untrusted b random :
  testVerify_full toy_world toy_maker ex_say (fun _ => ex_run_pool b) random (ex_expect (Some (lit "UntrustedCertificateException")) None) B_unique ex_sp_untrusted ex_pub ex_prv true = Ok (R_OK, None).
Proof.
  destruct (flawed_test toy_world toy_own toy_maker (fun _ => ex_run_pool b) B_unique ex_sp_untrusted ex_pub ex_prv true 0 F_untrusted ex_key toy_hash_ok toy_aes_ok toy_pem_ok toy_cert_keys toy_maker_ok
    ex_setup_untrusted ex_aes_loads eq_refl ex_name ltac:(cbn; lia) (ex_one_instructions true) (fun _ => ex_run_isolated b)) as (e & (z & _ & ->) & H).
  apply H, ex_expect_class; [reflexivity|constructor].
Qed.
Lemma ex_flaw_broken b random :
  testVerify_full toy_world toy_maker ex_say (fun _ => ex_run_pool b) random (ex_expect (Some (lit "CertificateChainBrokenException")) None) B_unique ex_sp_broken ex_crt ex_prv false = Ok (R_OK, None).
Proof.
  destruct (flawed_test toy_world toy_own toy_maker (fun _ => ex_run_pool b) B_unique ex_sp_broken ex_crt ex_prv false 2 (F_broken 2) ex_key toy_hash_ok toy_aes_ok toy_pem_ok toy_cert_keys toy_maker_ok
    ex_setup_broken ex_aes_loads eq_refl ex_name ltac:(cbn; lia) (ex_one_instructions false) (fun _ => ex_run_isolated b)) as (e & (z & z' & _ & _ & ->) & H).
  apply H, ex_expect_class; [reflexivity|constructor].
Qed.
Lemma ex_flaw_collision b random :
  testVerify_full toy_world toy_maker ex_say (fun _ => ex_run_pool b) random (ex_expect (Some (lit "CertificateSerialCollisionException")) None) B_unique ex_sp_collision ex_crt ex_prv false = Ok (R_OK, None).
Proof.
  destruct (flawed_test toy_world toy_own toy_maker (fun _ => ex_run_pool b) B_unique ex_sp_collision ex_crt ex_prv false 1 F_collision ex_key toy_hash_ok toy_aes_ok toy_pem_ok toy_cert_keys toy_maker_ok
    ex_setup_collision ex_aes_loads eq_refl ex_name ltac:(cbn; lia) (ex_one_instructions false) (fun _ => ex_run_isolated b)) as (e & (z & p & p' & _ & _ & ->) & H).
  apply H, ex_expect_class; [reflexivity|constructor].
Qed.
