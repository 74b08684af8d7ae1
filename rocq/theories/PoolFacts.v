(** What arrives from worker processes. *)
From Coq Require Import Lia ZifyClasses ZifyN ZifyNat ZifyBool.
From Verif Require Import PyBase World Codec PyFloat PyTime Algo Receipt DepBase Json Pem KeyStore VerifyReceipt State DepParser Verify Cli
  ListFacts CodecFacts CodecFacts2 SpecReceipt ReceiptFacts RoundTrip RoundTrip2 SpecDep VerifyFacts DepFacts SpecKeys KeyFacts SpecCluster ClusterFacts SpecDoc AcceptFacts CounterFacts
  IncFacts IncTheorems StepFacts SpecAmount AmountFacts SpecClean ParFacts CleanFacts CleanParFacts KeyStoreCli KeyStoreCliFacts CertExtractFacts SpecPool Pool.
Open Scope N_scope.
Open Scope py_scope.

Lemma unpickles_spec e : unpickles e = false <-> e = InvalidKey.
Proof. split; [|intros ->; reflexivity]. destruct e; first [reflexivity|discriminate]. Qed.

(** ** What is sent arrives *)
Section Sent.
Context (w : world) (PW : pem_ok w).

Lemma cert_sent c : cert_read w c -> send_cert w c = Ok c.
Proof.
  intros [t L]. pose proof (reload_cert w c t PW L) as R. unfold parseKeyStoreCert, catch in R. unfold send_cert.
  destruct (loadCert w _) as [x|e]; [exact R|]. destruct (Pem.value_error e); discriminate.
Qed.
Lemma key_sent k : key_read w k -> send_key w k = Ok k.
Proof.
  intros [t L]. pose proof (reload_key w k t PW L) as R. unfold parseKeyStorePubkey, catch in R. unfold send_key.
  destruct (loadPubKey w _) as [x|e]; [exact R|]. destruct (Pem.value_error e); discriminate.
Qed.
Lemma tuple_sent kt : key_read w (kt_key kt) -> (forall c, kt_cert kt = Some c -> cert_read w c) -> send_tuple w kt = Ok kt.
Proof.
  destruct kt as [k c]. cbn [kt_key kt_cert]. intros K C. unfold send_tuple. cbn [kt_key kt_cert]. rewrite (key_sent k K). cbn [bind].
  destruct c as [c|]; cbn [send_opt]; [rewrite (cert_sent c (C c eq_refl))|]; reflexivity.
Qed.
Lemma store_sent ks : store_read w ks -> send_store w ks = Ok ks.
Proof.
  intros F. unfold send_store. induction F as [|[i kt] ks [K C] F IH]; [reflexivity|]. cbn [mapM fst snd] in *.
  rewrite (tuple_sent kt K C). cbn [bind]. rewrite IH. reflexivity.
Qed.

(** Verifiers made of such certificates and stores *)
Definition sendable (v : verifier) : Prop :=
  (exists ks, v = fromKeyStore ks /\ store_read w ks) \/ (exists c, v = fromCert c /\ cert_read w c).
Lemma verifier_sent v : sendable v -> send_verifier w v = Ok v.
Proof.
  intros [(ks & -> & H)|(c & -> & H)]; unfold send_verifier, fromKeyStore, fromCert; cbn [v_store v_cert send_opt bind].
  - rewrite (store_sent ks H). reflexivity.
  - rewrite (cert_sent c H). reflexivity.
Qed.
Definition sendable_task (t : list (list vgroup * regstate)) : Prop := Forall (fun a => Forall (fun g => sendable (snd g)) (fst a)) t.
Lemma task_sent t : sendable_task t -> send_task w t = Ok t.
Proof.
  intros F. unfold send_task. induction F as [|[gs reg] t G F IH]; [reflexivity|]. cbn [mapM fst snd] in *.
  assert (mapM (fun g : vgroup => do v <- send_verifier w (snd g); Ok (fst g, v)) gs = Ok gs) as ->.
  { clear -PW G. induction G as [|[r v] gs S G IH]; [reflexivity|]. cbn [mapM fst snd] in *. rewrite (verifier_sent v S). cbn [bind]. rewrite IH. reflexivity. }
  cbn [bind]. rewrite IH. reflexivity.
Qed.

Lemma all_some_map {A B} (f : A -> option B) l : (exists l', all_some (map f l) = Some l' /\ map Some l' = map f l)
  \/ (all_some (map f l) = None /\ exists a, In a l /\ f a = None).
Proof.
  induction l as [|a l IH]; cbn [map all_some]; [left; exists []; now split|].
  destruct (f a) as [b|] eqn:E; [|right; split; [reflexivity|exists a; split; [now left|exact E]]].
  destruct IH as [(l' & -> & M)|(-> & x & I & X)].
  - left. exists (b :: l'). cbn [option_map map]. now rewrite M.
  - right. split; [reflexivity|]. exists x. split; [now right|exact X].
Qed.

Context (key : option bytes) (ps : option str).

Lemma batch_cases sch b pkgs : sendable_task pkgs ->
  pool_batch w sch key ps b pkgs = Some (run_batch w sch key ps b pkgs)
  \/ (sch_pool sch <> None /\ pool_batch w sch key ps b pkgs = None
      /\ exists t, In t (slices (task_size (sch_pool sch) (List.length pkgs)) pkgs) /\ run_task w key ps t (used_new b) = Err InvalidKey).
Proof.
  intros S. unfold pool_batch. destruct (sch_pool sch) as [k|] eqn:Ep; [|now left]. unfold task_results, run_batch. rewrite Ep.
  set (tasks := slices _ pkgs).
  assert (Forall sendable_task tasks) as F by (apply slices_fuel_Forall; exact S).
  assert (forall t, In t tasks -> match send_task w t with
                | Ok t' => match run_task w key ps t' (used_new b) with Err e => if unpickles e then Some (Err e) else None | Ok x => Some (Ok x) end
                | Err _ => None end
    = match run_task w key ps t (used_new b) with Err e => if unpickles e then Some (Err e) else None | Ok x => Some (Ok x) end) as E.
  { intros t I. rewrite (task_sent t); [reflexivity|]. exact (proj1 (Forall_forall _ _) F t I). }
  rewrite (map_ext_in _ _ _ E). clear E.
  destruct (all_some_map (fun t => match run_task w key ps t (used_new b) with Err e => if unpickles e then Some (Err e) else None | Ok x => Some (Ok x) end) tasks)
    as [(l & -> & M)|(-> & t & I & X)].
  - left. assert (l = map (fun t => run_task w key ps t (used_new b)) tasks) as ->; [|reflexivity].
    clear -M. revert l M. induction tasks as [|t ts IH]; intros l M; destruct l as [|x l]; try discriminate; [reflexivity|].
    cbn [map] in *. injection M as M1 M2. f_equal; [|now apply IH].
    destruct (run_task w key ps t (used_new b)) as [y|e]; [congruence|]. destruct (unpickles e); congruence.
  - right. split; [discriminate|]. split; [reflexivity|]. exists t. split; [exact I|].
    destruct (run_task w key ps t (used_new b)) as [y|e]; [discriminate|]. destruct (unpickles e) eqn:U; [discriminate|].
    apply unpickles_spec in U. now subst.
Qed.

(** The schedule that reports the invalid key *)
Fixpoint find_key (l : list exn) : nat :=
  match l with
  | [] => 0
  | InvalidKey :: _ => 0
  | _ :: r => S (find_key r)
  end.
Lemma find_key_spec l d : In InvalidKey l -> nth (find_key l) l d = InvalidKey.
Proof.
  induction l as [|e l IH]; [intros []|]. intros H.
  destruct e; try reflexivity; (destruct H as [H|H]; [discriminate|]); cbn [find_key nth]; now apply IH.
Qed.
Definition reporting (sch : schedule) : schedule := Schedule (sch_pool sch) (sch_nprocs sch) find_key.

Lemma partition_errs {A} (l : list (result A)) e : In (Err e) l -> In e (snd (partition_results l)).
Proof. induction l as [|[a|x] l IH]; [intros []| |]; intros [H|H]; try discriminate; cbn [partition_results snd]; [now apply IH|left; congruence|right; now apply IH]. Qed.

Lemma batch_reported sch b pkgs t : In t (slices (task_size (sch_pool sch) (List.length pkgs)) pkgs) -> run_task w key ps t (used_new b) = Err InvalidKey ->
  run_batch w (reporting sch) key ps b pkgs = Err InvalidKey.
Proof.
  intros I R. unfold run_batch, reporting. cbn [sch_pool sch_pick]. set (results := map _ _).
  assert (In (Err InvalidKey) results) as H by (apply in_map_iff; exists t; now split).
  apply partition_errs in H. destruct (partition_results results) as [oks [|e es]]; cbn [snd] in H; [destruct H|].
  now rewrite find_key_spec.
Qed.
Lemma batch_pick sch b pkgs x : run_batch w sch key ps b pkgs = Ok x -> run_batch w (reporting sch) key ps b pkgs = Ok x.
Proof. unfold run_batch, reporting. cbn [sch_pool sch_pick]. destruct (partition_results _) as [oks [|e es]]; [exact (fun H => H)|discriminate]. Qed.

Lemma collect_cases sch b pkgs u : sendable_task pkgs ->
  pool_collect w sch key ps b pkgs u = Some (collect w sch key ps b pkgs u)
  \/ (pool_collect w sch key ps b pkgs u = None /\ sch_pool sch <> None
      /\ collect w (reporting sch) key ps b pkgs u = Err InvalidKey
      /\ exists t, In t (slices (task_size (sch_pool sch) (List.length pkgs)) pkgs) /\ run_task w key ps t (used_new b) = Err InvalidKey).
Proof.
  intros S. unfold pool_collect, collect. destruct (batch_cases sch b pkgs S) as [->|(N & -> & t & I & R)]; [now left|right].
  split; [reflexivity|]. split; [exact N|]. split; [|eauto]. rewrite (batch_reported _ _ _ _ I R). reflexivity.
Qed.
Lemma collect_pick sch b pkgs u x : collect w sch key ps b pkgs u = Ok x -> collect w (reporting sch) key ps b pkgs u = Ok x.
Proof.
  unfold collect. intros H. apply bind_Ok in H as (r & R & H). now rewrite (batch_pick _ _ _ _ R).
Qed.

Lemma package_sendable ks c p : store_read w ks -> Forall (fun g => forall c, g_cert g = Some c -> cert_read w c) c ->
  packageChunkWithVerifiers w ks c = Ok p -> Forall (fun g => sendable (snd g)) p.
Proof.
  intros S F H. apply mapM_Ok in H. revert F. generalize dependent (List.length c =? 1)%nat. intros b H. induction H as [|g v c p H _ IH]; intros F; [constructor|].
  pose proof (Forall_inv F) as F1. apply Forall_inv_tail in F. constructor; [|exact (IH F)]. unfold package_group in H. destruct (g_cert g) as [ce|] eqn:Eg.
  - apply bind_Ok in H as (x & _ & H). apply Ok_inj in H. subst v. right. exists ce. split; [reflexivity|now apply F1].
  - destruct b; [|discriminate]. apply Ok_inj in H. subst v. left. exists ks. now split.
Qed.
Lemma packages_sendable ks cs pkgs : store_read w ks -> Forall (Forall (fun g => forall c, g_cert g = Some c -> cert_read w c)) cs ->
  mapM (packageChunkWithVerifiers w ks) cs = Ok pkgs -> Forall (Forall (fun g => sendable (snd g))) pkgs.
Proof.
  intros S F H. apply mapM_Ok in H. revert F. induction H as [|c p cs pkgs H _ IH]; intros F; [constructor|].
  constructor; [exact (package_sendable ks c p S (Forall_inv F) H)|exact (IH (Forall_inv_tail F))].
Qed.
Lemma predict_fst pkgs : forall reg wargs, predict w key reg pkgs = Ok wargs -> map fst wargs = pkgs.
Proof.
  induction pkgs as [|p pkgs IH]; intros reg wargs H; cbn [predict] in H.
  - apply Ok_inj in H. now subst.
  - apply bind_Ok in H as (r & _ & H). apply bind_Ok in H as (rest & R & H). apply Ok_inj in H. subst wargs. cbn [map fst]. f_equal. now apply (IH r).
Qed.

(** Either all is as without processes, or there was an invalid key *)
Lemma batches_cases sch ks b e batches : store_read w ks -> Forall (Forall (Forall (fun g => forall c, g_cert g = Some c -> cert_read w c))) batches ->
  forall pending reg u, (forall p, pending = Some p -> sendable_task p) ->
  pool_batches w sch ks key ps b batches e pending reg u = Some (par_batches w sch ks key ps b batches e pending reg u)
  \/ (pool_batches w sch ks key ps b batches e pending reg u = None /\ sch_pool sch <> None
      /\ par_batches w (reporting sch) ks key ps b batches e pending reg u = Err InvalidKey).
Proof.
  intros S F. induction F as [|cs batches F1 F IH]; intros pending reg u Hp; cbn [pool_batches par_batches].
  - destruct e as [x|]; [now left|]. destruct pending as [p|]; [|now left].
    destruct (collect_cases sch b p u (Hp p eq_refl)) as [->|(-> & N & C & _)]; [now left|right; auto].
  - destruct (mapM (packageChunkWithVerifiers w ks) cs) as [pkgs|x] eqn:Ek; cbn [bind]; [|now left].
    set (m := match pending with None => Ok (reg, u) | Some p => collect w sch key ps b p u end).
    set (m' := match pending with None => Ok (reg, u) | Some p => collect w (reporting sch) key ps b p u end).
    set (o := match pending with None => Some (Ok (reg, u)) | Some p => pool_collect w sch key ps b p u end).
    assert ((o = Some m /\ forall x, m = Ok x -> m' = Ok x) \/ (o = None /\ sch_pool sch <> None /\ m' = Err InvalidKey)) as [[-> P]|(-> & N & ->)].
    { subst o m m'. destruct pending as [p|]; [|left; split; [reflexivity|auto]].
      destruct (collect_cases sch b p u (Hp p eq_refl)) as [->|(-> & N & C & _)]; [left; split; [reflexivity|intros x; apply collect_pick]|right; auto]. }
    2:{ right. auto. }
    destruct m as [ru|x]; cbn [bind]; [|now left]. rewrite (P ru eq_refl). cbn [bind].
    destruct (predict w key (fst ru) pkgs) as [wargs|x] eqn:Ew; cbn [bind]; [|now left].
    apply IH. intros p X. apply Some_inj in X. subst p. pose proof (packages_sendable ks cs pkgs S F1 Ek) as G.
    apply predict_fst in Ew. rewrite <- Ew in G. rewrite Forall_map in G. exact G.
Qed.
End Sent.

(** Streams of chunks whose certificates were read from texts *)
Definition certs_read (w : world) (s : stream chunk) : Prop := Forall (Forall (fun g => forall c, g_cert g = Some c -> cert_read w c)) (fst s).

Lemma chunks_Forall {A} (Q : A -> Prop) n (cs : list A) e : forall ret, Forall Q cs -> Forall Q ret -> Forall (Forall Q) (fst (chunks_for_procs n cs ret e)).
Proof.
  intros ret F R. destruct (chunks_for_procs_batches Q n cs e ret F R) as [B _]. eapply Forall_impl; [|exact B]. intros x [_ X]. exact X.
Qed.

Theorem pool_cases w sch s ks key c idx : pem_ok w -> store_read w ks -> certs_read w s ->
  verifyWithPool w sch s ks key c idx = Some (verifyParsedDEP w sch s ks key c idx)
  \/ (verifyWithPool w sch s ks key c idx = None /\ sch_pool sch <> None
      /\ snd (verifyParsedDEP w (reporting sch) s ks key c idx) = Some InvalidKey).
Proof.
  intros PW S F. unfold verifyWithPool, verifyParsedDEP, with_register. destruct (getCashRegisterInfo c idx) as [c1 [[[ps reg] u]|x]] eqn:G; cbn [bind]; [|now left].
  unfold par_body. cbn [reporting sch_nprocs].
  destruct (batches_cases w PW key ps sch ks (backend_of u) (snd (getChunksForProcs s (sch_nprocs sch))) (fst (getChunksForProcs s (sch_nprocs sch))) S) with (pending := @None (list (list vgroup * regstate))) (reg := reg) (u := u)
    as [->|(-> & N & ->)].
  - unfold getChunksForProcs. apply chunks_Forall; [exact F|constructor].
  - discriminate.
  - now left.
  - right. split; [reflexivity|]. split; [exact N|reflexivity].
Qed.
