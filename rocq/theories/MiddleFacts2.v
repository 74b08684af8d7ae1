(** Verification that starts with the start receipt of a register of a cluster (C33). *)
From Coq Require Import Lia.
From Verif Require Import PyBase World Regex Codec PyFloat PyTime Algo Receipt DepBase Json Pem KeyStore VerifyReceipt State DepParser
  Verify ListFacts CodecFacts SpecReceipt FieldFacts ReceiptFacts RoundTrip SpecDep SpecCluster VerifyFacts StepFacts DepFacts SeqFacts
  ClusterFacts AcceptFacts DepTheorems MiddleFacts.
Open Scope N_scope.
Open Scope py_scope.

Lemma start_valid w key ps u i l b : valid_sequence w key ps new_register u None (i :: l) ->
  r_previousChain (i_rec i) <> [] -> (b = backend_of u \/ b = B_unique) ->
  valid_sequence w key None (RegState None None 0 false (Some (r_previousChain (i_rec i)))) (used_new b) None (i :: l).
Proof.
  intros V NC B. apply valid_cons in V as [(A & S & Re & Co & q & Eq & Cs & Ch & F) V]. apply valid_cons.
  assert (truthy (Some (r_previousChain (i_rec i))) = Some (r_previousChain (i_rec i))) as Tr
    by (destruct (r_previousChain (i_rec i)); [congruence|reflexivity]).
  split.
  - split; [exact A|]. split.
    { destruct (S eq_refl) as [S1 _]. intros _. split; [exact S1|]. intros s x (X & _). discriminate X. }
    split; [discriminate|]. split; [exact Co|]. exists None. split; [now left|]. split; [intros s p X; discriminate X|]. cbn [s_chain].
    rewrite Tr. split; [reflexivity|]. discriminate.
  - destruct V as (Al & _ & (Rl & Rl2) & Cl & Q). split; [exact Al|]. split; [intros ? ? X; discriminate X|]. split; [split; [exact Rl|exact Rl2]|].
    split; [exact Cl|]. intros NE. destruct (Q NE) as (q' & Eq' & Co' & Ch' & F'). exists q'. split; [exact Eq'|]. split; [exact Co'|]. split.
    + destruct l as [|j l]; [congruence|]. cbn [reg_step s_chain chain_rule] in *. rewrite chain_step_truthy in *. exact Ch'.
    + cbn in Eq'. subst q'. unfold is_some in *. cbn [as_past] in *. now apply (fresh_forget w u).
Qed.

Theorem start_alone w dep gs ks key c idx before after c' s v rest r alg b : hash_ok w -> dep_is w dep gs ->
  selects c idx before new_register after -> verifyDEP w dep ks key c idx = (c', None) ->
  dep_texts ks gs = (s, v) :: rest -> fromJWSString w s = Ok (r, alg) -> b = backend_of (c_used c) \/ b = B_unique ->
  exists c2 reg', verifyDEP w dep ks key (fromArbitraryStartReceipt r b) (Some 0%Z) = (c2, None)
    /\ c_regs c2 = [reg'] /\ c_regs c' = before ++ reg' :: after.
Proof.
  intros HO D S H T J B. apply verifyDEP_spec in H as (bf & reg & af & reg' & p & items & S' & Dk & P & V & Ra & ->); [|exact HO].
  destruct (selects_fun _ _ _ _ _ _ _ _ S' S) as (-> & -> & ->). clear S'.
  assert (p = None) as -> by (destruct p as [[? ?]|]; [destruct P as (X & _); discriminate X|reflexivity]).
  assert (exists i l, items = i :: l /\ i_jws i = s /\ i_rec i = r) as (i & l & -> & Ei & Er).
  { destruct Dk as (gs' & D' & _ & F & _). rewrite <- (dep_is_fun _ _ _ _ D D') in F. rewrite T in F.
    inversion F as [|a i0 la l0 (Ej & Rd & _) F']; subst. exists i0, l0. split; [reflexivity|]. split; [exact Ej|]. cbn [fst] in *.
    apply fromJWSString_spec in J as (_ & J). eapply reads_fun; [exact Rd|exact J]. }
  subst r. assert (r_previousChain (i_rec i) <> []) as NC.
  { apply valid_cons in V as [(_ & _ & _ & _ & q & _ & _ & (Ch & _)) _]. cbn [new_register s_chain truthy] in Ch. destruct Ch as (x & _ & E). cbn [snd] in E.
    intros X. rewrite X in E. assert (List.length (firstn 8 (w_sha256 w x)) = 8%nat) as L by (rewrite firstn_length, (proj1 (HO x)); reflexivity).
    destruct (firstn 8 (w_sha256 w x)) as [|a1 [|a2 [|a3 t]]]; try discriminate L. discriminate E. }
  set (reg0 := RegState None None 0 false (Some (r_previousChain (i_rec i)))).
  assert (fromArbitraryStartReceipt (i_rec i) b = Cluster [reg0] (used_new b)) as ->.
  { unfold fromArbitraryStartReceipt, init_cluster. cbn [truthy]. unfold reg0. destruct (r_previousChain (i_rec i)); [congruence|reflexivity]. }
  exists (Cluster [reg'] (used_after (used_new b) (i :: l))), reg'. split; [|split; reflexivity].
  apply verifyDEP_spec; [exact HO|]. exists [], reg0, [], reg', None, (i :: l).
  split; [exact (sel_old (Cluster [reg0] (used_new b)) [] reg0 [] eq_refl)|]. split; [exact Dk|]. split; [now left|].
  split; [exact (start_valid w key _ (c_used c) i l b V NC B)|]. split; [|reflexivity].
  destruct Ra as [_ Ra]. split; [discriminate|]. intros l0 j E. destruct (Ra l0 j E) as (R1 & R2 & R3 & R4 & R5 & R6 & R7 & R8).
  split; [exact R1|]. split; [exact R2|]. split; [congruence|]. split; [exact R4|].
  split; [|split; [intros _; now apply R5|split; [exact R7|exact R8]]].
  intros X. exfalso. revert X. unfold reg0. cbn [s_chain]. destruct (r_previousChain (i_rec i)); [congruence|discriminate].
Qed.
