(** More about verification_state.py: what is not accepted, and states made from receipts. *)
From Coq Require Import Lia.
From Verif Require Import PyBase World Codec Algo Receipt Json KeyStore VerifyReceipt State DepBase DepParser Verify DepExport StateCli ListFacts CodecFacts SpecReceipt ReceiptFacts RoundTrip RoundTrip2
  VerifyFacts SpecDep DepFacts SpecCluster ClusterFacts AcceptFacts SeqFacts SpecState StateFacts SpecChunks SpecDoc IncBack IncTheorems
  SpecStateCli StateCliFacts MiddleFacts MiddleFacts2.
Open Scope N_scope.
Open Scope py_scope.
Import State.

Theorem update_document w py b k n doc key s s' : plain_names doc -> state_py w py b k (S_update n doc key) s = Ok s' -> exists gs, dep_doc w doc gs.
Proof.
  intros P H. unfold state_py in H. apply bind_Ok in H as (c' & H & _). cbn iota in H. apply bind_Ok in H as (c & _ & H).
  unfold update_register in H. cbv zeta in H. apply bind_Ok in H as (c1 & _ & H). destruct (parse_inc w P_certless doc k) as [cs o] eqn:E. cbn [snd] in H.
  destruct o; [discriminate H|]. destruct (parsed_doc w P_certless doc k cs P E) as (gs & _ & D & _). eauto.
Qed.

Lemma init_wf b x y : wf_used (c_used (init_cluster b x y)).
Proof. unfold init_cluster. destruct (truthy y), (truthy x); cbn [c_used new_cluster]; destruct b; cbn; repeat constructor. Qed.

Theorem from_start w py dep gs ks key c idx before after c' t v rest b k arg s : hash_ok w -> dep_is w dep gs ->
  selects c idx before new_register after -> verifyDEP w dep ks key c idx = (c', None) ->
  dep_texts ks gs = (t, v) :: rest -> strip (char_isspace w) arg = t -> b = backend_of (c_used c) \/ b = B_unique ->
  exists s' c0 c2 reg', state_py w py b k (S_fromStart F_jws arg) s = Ok s' /\ cluster_of_json (load s') = Ok c0
    /\ verifyDEP w dep ks key c0 (Some 0%Z) = (c2, None) /\ c_regs c2 = [reg'] /\ c_regs c' = before ++ reg' :: after.
Proof.
  intros HO D S H T A B. assert (exists r alg, fromJWSString w t = Ok (r, alg)) as (r & alg & J).
  { apply verifyDEP_spec in H as (bf & reg & af & reg' & p & items & _ & Dk & _); [|exact HO].
    destruct Dk as (gs' & D' & _ & F & _). rewrite <- (dep_is_fun _ _ _ _ D D') in F. rewrite T in F.
    inversion F as [|a i0 la l0 (Ej & Rd & _) F']; subst. cbn [fst] in *. exists (i_rec i0), (lit "R1"). now apply parse_reads. }
  destruct (start_alone w dep gs ks key c idx before after c' t v rest r alg b HO D S H T J B) as (c2 & reg' & V & R1 & R2).
  exists (cluster_to_json (fromArbitraryStartReceipt r b)), (fromArbitraryStartReceipt r b), c2, reg'.
  split; [unfold state_py; cbn [read_format]; rewrite A, J; reflexivity|]. split; [apply cluster_file_roundtrip, init_wf|]. auto.
Qed.

Theorem from_middle w py dep dep2 gs gs1 gs2 ks key c idx c' t v rest r alg b k arg s : hash_ok w ->
  dep_is w dep gs -> dep_is w dep2 gs2 -> cut gs gs1 gs2 -> verifyDEP w dep ks key c idx = (c', None) ->
  dep_texts ks gs2 = (t, v) :: rest -> fromJWSString w t = Ok (r, alg) -> standard r -> strip (char_isspace w) arg = t ->
  b = backend_of (c_used c) \/ b = B_unique ->
  exists s' c0 c2 reg2 before reg after reg',
    state_py w py b k (S_from F_jws arg key) s = Ok s' /\ cluster_of_json (load s') = Ok c0
    /\ verifyDEP w dep2 ks key c0 (Some 0%Z) = (c2, None) /\ c_regs c2 = [reg2]
    /\ selects c idx before reg after /\ c_regs c' = before ++ reg' :: after
    /\ s_last reg2 = s_last reg' /\ (key <> None -> s_counter reg2 = s_counter reg').
Proof.
  intros HO D D2 Cu H T J St A B.
  destruct (middle w dep dep2 gs gs1 gs2 ks key c idx c' t v rest r alg b HO D D2 Cu H T J St B) as (c0 & c2 & reg2 & bf & reg & af & reg' & F & R).
  exists (cluster_to_json c0), c0, c2, reg2, bf, reg, af, reg'.
  split; [unfold state_py; cbn [read_format]; rewrite A, J; cbn [bind fst snd]; rewrite F; reflexivity|]. split; [|exact R].
  apply cluster_file_roundtrip. unfold fromArbitraryReceipt in F. destruct (known_alg alg); [|discriminate F]. cbn [negb] in F.
  apply bind_Ok in F as (tc & _ & F). apply bind_Ok in F as (d0 & _ & F). apply bind_Ok in F as (d1 & _ & F). apply bind_Ok in F as (j & _ & F).
  cbv zeta in F. apply Ok_inj in F. subst c0. cbn [c_used]. apply init_wf.
Qed.
