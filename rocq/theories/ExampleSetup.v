(** Test specifications with their keys and certificates in the toy world. *)
From Coq Require Import Floats.SpecFloat Lia ZifyClasses ZifyN ZifyNat ZifyBool.
From Verif Require Import PyBase World Codec CodecFacts CodecFacts2 PyFloat PyTime Algo Receipt SpecReceipt SpecKeys Json ListFacts Pem PemFacts KeyStore VerifyReceipt State DepParser Verify DepExport
  SpecDep SpecCluster SpecAmount CashReg SpecCashReg CashRegFacts Override RunTest SpecRunTest SpecPool SpecState TestVerify SpecTestVerify TestSetup SpecSetup SetupFacts SetupTest
  ExampleWorld ExampleDep ExampleCashReg ExamplePool ExampleRunTest ExampleTestVerify.
Open Scope N_scope.
Local Ltac Zify.zify_post_hook ::= Z.div_mod_to_equations.

(** ** Toy certificates: a byte each for the serial number, the key and the signer's key *)

Definition toy_own (s : privkey) (p : pubkey) : Prop := s = p /\ exists x, x < 256 /\ s = [x].
Definition toy_code (i : nat) (u : purpose) : N :=
  (16 * N.of_nat i + match u with P_self => 1 | P_fake => 2 | P_chain j => 2 + N.of_nat j end) mod 255.
Definition toy_maker : maker := {|
  mk_priv := fun s => match s with [x] => if x <? 256 then Ok [x] else Err PyValueError | _ => Err PyValueError end;
  mk_pair := fun i u => ([toy_code i u], [toy_code i u]);
  mk_serial := fun i u => (1 + Z.of_N (toy_code i u))%Z;
  mk_zda := fun i => (1 + Z.of_nat i mod 999)%Z;
  mk_cert := fun i u p name days z s o => Ok [Z.to_N z; hd 0 p; hd 0 s]
|}.

Lemma toy_read c : is_bytes c -> c <> [] -> cert_read toy_world c.
Proof.
  intros B N. exists (pem_text cert_label [b64encode c] []). cbn [toy_world w_load_cert]. rewrite toy_unpem_text.
  - cbn [List.concat]. rewrite app_nil_r, a2b_b64encode by exact B. destruct c; [contradiction|reflexivity].
  - cbn. unfold c_nl. intuition discriminate.
  - constructor; [apply b64encode_data|constructor].
Qed.
Lemma toy_bytes c : cert_read toy_world c -> is_bytes c.
Proof.
  intros [t H]. cbn [toy_world w_load_cert] in H. unfold toy_unpem in H. destruct (split_char c_nl t) as [|l l0]; [discriminate|].
  destruct (a2b_base64 (List.concat (removelast l0))) as [[|b bs]|] eqn:E; try discriminate. apply Some_inj in H. subst c. now apply a2b_bytes in E.
Qed.
Lemma toy_code_small i u : toy_code i u < 255.
Proof. unfold toy_code. lia. Qed.

Lemma toy_maker_ok : maker_ok toy_world toy_own toy_maker.
Proof.
  split.
  - intros s p [-> _]. apply toy_key_pair.
  - intros i u. split; [reflexivity|]. exists (toy_code i u). split; [pose proof (toy_code_small i u); lia|reflexivity].
  - intros i u. cbn [toy_maker mk_serial]. lia.
  - intros i. cbn [toy_maker mk_zda]. lia.
  - intros i u p name z s o s' p' [-> (x & Hx & ->)] [<- (y & Hy & ->)] Hz. exists [Z.to_N z; x; y]. cbn [toy_maker mk_cert hd]. split; [reflexivity|].
    assert (0 < z < 256)%Z as Lz.
    { destruct Hz as [->|(L & k & R & E)].
      - cbn [toy_maker mk_serial]. pose proof (toy_code_small i u). lia.
      - split; [exact L|]. apply toy_bytes in R. cbn [toy_world w_serial] in E. destruct k as [|a k]; cbn [nth] in E; [lia|]. apply Forall_inv in R. cbv beta in R. lia. }
    split; [apply toy_read; [repeat constructor; lia|discriminate]|]. cbn [toy_world w_serial w_cert_pubkey w_cert_signed_by nth]. split; [lia|]. split; [reflexivity|].
    intros k _. rewrite N.eqb_eq. split; [intros ->; reflexivity|intros E; injection E as <-; reflexivity].
Qed.

(** ** Key material *)

Definition ex_crt : str := Eval vm_compute in addPEMCertHeaders (b64encode ex_cert).
Definition ex_pub : str := Eval vm_compute in addPEMPubKeyHeaders (b64encode [7]).
Definition ex_prv : str := [7].
Definition ex_aes : str := Eval vm_compute in b64encode ex_key.

Lemma ex_crt_loads : loadCert toy_world ex_crt = Ok ex_cert.
Proof. vm_compute. reflexivity. Qed.
Lemma ex_pub_loads : loadPubKey toy_world ex_pub = Ok [7].
Proof. vm_compute. reflexivity. Qed.
Lemma ex_aes_loads : loadB64Key ex_aes = Ok ex_key.
Proof. vm_compute. reflexivity. Qed.
Lemma ex_material (closed : bool) : material_ok toy_world toy_own toy_maker closed (if closed then ex_pub else ex_crt, ex_prv).
Proof.
  exists [7]. split; [reflexivity|]. destruct closed; [exists [7]|exists ex_cert]; cbn [fst]; (split; [apply ex_pub_loads || apply ex_crt_loads|]); (split; [reflexivity|]); exists 7; split; reflexivity || lia.
Qed.
Definition ex_mats (closed : bool) (n : nat) : list (str * str) := repeat (if closed then ex_pub else ex_crt, ex_prv) n.
Lemma ex_given closed n c : given_cert toy_world (ex_mats closed n) c -> closed = false -> c = ex_cert.
Proof. intros (mat & H & L) ->. apply repeat_spec in H. subst mat. cbn [fst] in L. rewrite ex_crt_loads in L. now apply Ok_inj in L. Qed.

(** ** Specifications *)

(** A closed system with two devices and three registers *)
Definition ex_sp_closed : tspec := TSpec 2 ex_aes (Some 8%nat) (lit "REG-1") (lit "U:ATU12345678") true false false None None None None None ex_test.
(** An open system with two devices, the second one with two certificates between its
    own and the root *)
Definition ex_open : list instr :=
  [ex_in (lit "1") 0 0 0 false NO_NEW_DEP None None;
   ex_in (lit "2") 1 1250 1 false NO_NEW_DEP None None;
   ex_in (lit "3") 2 500 1 true NO_NEW_DEP None None;
   ex_in (lit "4") 3 0 0 false NO_NEW_DEP None (Some (float_of_cents false 1750))].
Definition ex_sp_open : tspec := TSpec 2 ex_aes None (lit "REG-1") (lit "U:ATU12345678") true false false (Some [0; 2]%Z) None None None None ex_open.
(** One group and serial numbers in decimal notation *)
Definition ex_sp_decimal : tspec := TSpec 2 ex_aes None (lit "REG-1") (lit "U:ATU12345678") false true false None None None None None ex_open.

Lemma ex_company : company_ok toy_world (lit "U:ATU12345678").
Proof.
  split; [right; left; exists (lit "ATU12345678"); repeat split; vm_compute; (reflexivity || lia)|]. split; [vm_compute; intuition discriminate|].
  split; [vm_compute; intuition discriminate|]. apply encodes_ascii; repeat constructor.
Qed.
Lemma ex_setup_closed : setup_ok toy_world toy_own toy_maker ex_sp_closed true (ex_mats true 2).
Proof.
  split; [repeat constructor; apply (ex_material true)|]. split.
  - intros i _. split; [exists false; split; reflexivity|]. split; [intros _; split; reflexivity|discriminate].
  - split; [|split; [intros _; apply ex_company|discriminate]]. split; [|split; discriminate].
    intros i u i' u' [L H] [L' H'] E. destruct u as [|j|]; [|destruct H as [H _]; discriminate H|destruct H]. destruct u' as [|j'|]; [|destruct H' as [H' _]; discriminate H'|destruct H'].
    cbn in L, L'. split; [|reflexivity]. cbn [toy_maker mk_serial] in E. unfold toy_code in E. lia.
Qed.
Lemma ex_setup_open : setup_ok toy_world toy_own toy_maker ex_sp_open false (ex_mats false 2).
Proof.
  split; [repeat constructor; apply (ex_material false)|]. split.
  - intros i L. split; [exists false; split; reflexivity|]. split; [intros _; split; reflexivity|]. intros _.
    destruct i as [|[|i]]; [exists 0%Z|exists 2%Z|cbn in L; lia]; (split; [reflexivity|]); [left; lia|right; split; [reflexivity|]; exists 0%Z; split; [reflexivity|lia]].
  - split; [|split; [discriminate|discriminate]].
    assert (forall i u, made_for ex_sp_open false (List.length (ex_mats false 2)) i u -> i = 1%nat /\ exists j, u = P_chain j /\ (j = 1 \/ j = 2)%nat) as M.
    { intros i u [L H]. destruct u as [|j|]; [discriminate H| |destruct H]. destruct H as (_ & n & E & Hn). cbn [ex_sp_open ts_length element_at] in E.
      destruct i as [|[|i]]; cbn [nth_error] in E; [apply Some_inj in E; subst n; lia|apply Some_inj in E; subst n|cbn in L; lia]. split; [reflexivity|]. exists j. split; [reflexivity|lia]. }
    split; [|split].
    + intros i u i' u' H H' E. destruct (M _ _ H) as (-> & j & -> & J), (M _ _ H') as (-> & j' & -> & J').
      destruct J as [->| ->], J' as [->| ->]; (split; [reflexivity|]); try reflexivity; vm_compute in E; discriminate E.
    + intros _ c i u G H E. apply ex_given in G; [subst c|reflexivity]. destruct (M _ _ H) as (-> & j & -> & J). destruct J as [->| ->]; vm_compute in E; discriminate E.
    + intros _ c c' G G' _. apply ex_given in G; [|reflexivity]. apply ex_given in G'; [|reflexivity]. congruence.
Qed.
Lemma ex_setup_decimal : setup_ok toy_world toy_own toy_maker ex_sp_decimal false (ex_mats false 2).
Proof.
  split; [repeat constructor; apply (ex_material false)|]. split.
  - intros i L. split; [exists false; split; reflexivity|]. split; [intros _; split; reflexivity|]. intros _. exists 0%Z. split; [reflexivity|]. left. lia.
  - assert (forall i u, ~ made_for ex_sp_decimal false (List.length (ex_mats false 2)) i u) as M.
    { intros i u [L H]. destruct u as [|j|]; [discriminate H| |destruct H]. destruct H as (_ & n & E & Hn). cbn in E. lia. }
    split; [|split; [discriminate|]].
    + split; [intros i u i' u' H; destruct (M _ _ H)|]. split; [intros _ c i u _ H; destruct (M _ _ H)|].
      intros _ c c' G G' _. apply ex_given in G; [|reflexivity]. apply ex_given in G'; [|reflexivity]. congruence.
    + intros _ _ _ c c' t G G' _ _. apply ex_given in G; [|reflexivity]. apply ex_given in G'; [|reflexivity]. congruence.
Qed.

(** ** Instructions *)

Local Ltac cases E l := cbn [app] in E;
  repeat (destruct l as [|? l]; cbn [app] in E;
    [first [discriminate E | injection E; clear E; intros; subst]|first [discriminate E | injection E as <- E]]).
Lemma ex_bare closed id sec c dev dam new cont t : identifier id -> sec < 60 -> (Z.of_N c <= 10 ^ 14)%Z ->
  bare_ok (bare_request closed (ex_in id sec c dev dam new cont t)).
Proof.
  intros I S L. split; [exact I|]. split.
  { unfold bare_request, instr_request, ex_in, valid_dt. cbn [q_time in_time dt_year dt_month dt_day dt_hour dt_min dt_sec]. split; [lia|]. split; [lia|].
    split; [exists 31; unfold days_in_month; split; [cbn; intuition lia|lia]|]. lia. }
  split; [cbn; lia|]. eexists. now apply ex_in_total.
Qed.
Lemma ex_bare_plain closed id sec dev new cont t : plain_zero_request (bare_request closed (ex_in id sec 0 dev false new cont t)).
Proof.
  split; [do 3 eexists; reflexivity|]. split; [|split; reflexivity].
  unfold zero_request, is_zero. repeat (constructor; [eexists; reflexivity|]). constructor.
Qed.
Local Ltac listed := cbn [owners ex_test ex_open ex_in in_new in_cont combine of_register filter fst snd map Nat.eqb].
Local Ltac outage := let E := fresh in let l := fresh in let W1 := fresh in let W2 := fresh in intros l ? ? ? ? E W1 W2 _; cases E l;
  first [apply ex_bare_plain | exfalso; apply W1; do 3 eexists; reflexivity | destruct W2 as (? & ? & ? & W2); discriminate W2].
Local Ltac fits := let E := fresh in let T := fresh in let l := fresh in intros l ? ? ? E _ T; apply turnover_calc in T; subst; cases E l; vm_compute; (split; [discriminate|reflexivity]).
Local Ltac each := intros [|[|[|?]]]; listed.

Lemma ex_test_instructions : instructions_ok toy_world true 2 8 B_natural ex_test.
Proof.
  unfold instructions_ok. split; [repeat constructor|]. split.
  { unfold ex_test. cbn [map]. repeat (constructor; [apply ex_bare; [now apply ex_identifier|lia|lia]|]). constructor. }
  split; [do 2 eexists; split; reflexivity|]. split.
  { intros l1 i l2 E N k C. unfold ex_test in E. cases E l1; try discriminate N; try discriminate C; injection C as <-; [exists 0%nat|exists 2%nat]; (split; [cbn; lia|reflexivity]). }
  split; [exact ex_test_newest|].
  split; [each; intros ? ? E; first [discriminate E|injection E as <- _; apply ex_bare_plain]|].
  split; [each; let l := fresh in intros l ? ? ? E; cases E l; reflexivity|].
  split; [each; outage|].
  split; [each; fits|].
  split; [each; intros ? ? ? ? E1 E2; try discriminate E1; try discriminate E2; injection E1 as <- _; injection E2 as <- _; repeat split|].
  split; [cbn [ids_new]; vm_compute; repeat split; try exact I; (eexists; eexists; split; [reflexivity|split; [reflexivity|reflexivity]])|].
  intros l1 i l2 t1 o q t2 x E1 En Ex Nx. change (owners 1 0 ex_test) with [0;0;1;1;0;1;2]%nat. intros E2 L. unfold ex_test in E1.
  cases E1 l1; try discriminate Ex; cbn [in_turnover ex_in] in Ex; injection Ex as <-;
    repeat (destruct t1 as [|? t1]; [first [discriminate L|clear L]|first [discriminate L|injection L as L]]);
    cbn [combine app ex_test map] in E2; injection E2; intros; subst; eexists.
  - split; [apply (money_cents false 1250); [reflexivity|discriminate]|]. listed.
    exists [0%Z; 1250%Z]. split; [|reflexivity]. repeat (constructor; [right; split; [reflexivity|]; apply ex_in_total; discriminate|]). constructor.
  - split; [apply (money_cents false 1350); [reflexivity|discriminate]|]. listed.
    exists [0%Z; 1250%Z; 100%Z]. split; [|reflexivity]. repeat (constructor; [right; split; [reflexivity|]; apply ex_in_total; discriminate|]). constructor.
Qed.
Lemma ex_open_instructions : instructions_ok toy_world false 2 8 B_unique ex_open.
Proof.
  unfold instructions_ok. split; [repeat constructor|]. split.
  { unfold ex_open. cbn [map]. repeat (constructor; [apply ex_bare; [now apply ex_identifier|lia|lia]|]). constructor. }
  split; [do 2 eexists; split; reflexivity|]. split.
  { intros l1 i l2 E N k C. unfold ex_open in E. cases E l1; discriminate N. }
  split; [intros l1 p i l2 o E N; unfold ex_open in E; cases E l1; discriminate N|].
  split; [each; intros ? ? E; first [discriminate E|injection E as <- _; apply ex_bare_plain]|].
  split; [each; let l := fresh in intros l ? ? ? E; cases E l; reflexivity|].
  split; [each; outage|].
  split; [each; fits|].
  split; [each; intros ? ? ? ? E1 E2; try discriminate E1; try discriminate E2|].
  split; [cbn [ids_new]; repeat constructor; cbn; intuition discriminate|].
  intros l1 i l2 t1 o q t2 x E1 En Ex Nx. change (owners 1 0 ex_open) with [0;0;0;0]%nat. intros E2 L. unfold ex_open in E1.
  cases E1 l1; try discriminate Ex; cbn [in_turnover ex_in] in Ex; injection Ex as <-;
    repeat (destruct t1 as [|? t1]; [first [discriminate L|clear L]|first [discriminate L|injection L as L]]);
    cbn [combine app ex_open map] in E2; injection E2; intros; subst; eexists.
  split; [apply (money_cents false 1750); [reflexivity|discriminate]|]. listed.
  exists [0%Z; 1250%Z; 500%Z; 0%Z]. split; [|reflexivity]. repeat (constructor; [right; split; [reflexivity|]; apply ex_in_total; discriminate|]). constructor.
Qed.

(** ** The tests pass. *)

Lemma ex_full_closed b random : testVerify_full toy_world toy_maker ex_say (fun _ => ex_run_pool b) random (ex_expect None None) B_natural ex_sp_closed ex_pub ex_prv true = Ok (R_OK, None).
Proof.
  apply (test_passes toy_world toy_own toy_maker ex_say (fun _ => ex_run_pool b) random (ex_expect None None) B_natural ex_sp_closed ex_pub ex_prv true ex_key toy_hash_ok toy_aes_ok toy_pem_ok toy_cert_keys toy_maker_ok ex_setup_closed ltac:(discriminate)
    ex_aes_loads eq_refl ex_name ltac:(cbn; lia) ex_test_instructions (fun _ => ex_run_isolated b) eq_refl).
Qed.
Lemma ex_full_open b random : testVerify_full toy_world toy_maker ex_say (fun _ => ex_run_pool b) random (ex_expect None None) B_unique ex_sp_open ex_crt ex_prv false = Ok (R_OK, None).
Proof.
  apply (test_passes toy_world toy_own toy_maker ex_say (fun _ => ex_run_pool b) random (ex_expect None None) B_unique ex_sp_open ex_crt ex_prv false ex_key toy_hash_ok toy_aes_ok toy_pem_ok toy_cert_keys toy_maker_ok ex_setup_open ltac:(discriminate)
    ex_aes_loads eq_refl ex_name ltac:(cbn; lia) ex_open_instructions (fun _ => ex_run_isolated b) eq_refl).
Qed.
Lemma ex_full_decimal b random : testVerify_full toy_world toy_maker ex_say (fun _ => ex_run_pool b) random (ex_expect None None) B_unique ex_sp_decimal ex_crt ex_prv false = Ok (R_OK, None).
Proof.
  apply (test_passes toy_world toy_own toy_maker ex_say (fun _ => ex_run_pool b) random (ex_expect None None) B_unique ex_sp_decimal ex_crt ex_prv false ex_key toy_hash_ok toy_aes_ok toy_pem_ok toy_cert_keys toy_maker_ok ex_setup_decimal ltac:(discriminate)
    ex_aes_loads eq_refl ex_name ltac:(cbn; lia) ex_open_instructions (fun _ => ex_run_isolated b) eq_refl).
Qed.
