(** Splitting and merging DEPs from the command line. *)
From Coq Require Import Lia Permutation Sorting.Sorted.
From Verif Require Import PyBase ListFacts World Codec Receipt DepBase Json Pem KeyStore VerifyReceipt State DepParser Verify DepExport SpecReceipt SpecDep SpecCluster SpecDoc
  SpecChunks SpecKeys SpecMerge SpecExport StateArgv DepArgv SpecDepArgv DepArgvFacts ExampleWorld ExampleReceipts ExampleDep ExampleInc ExampleExport.
Open Scope N_scope.

(** The files after some were written *)
Definition put_files (fs : files) (l : list (str * json)) : files :=
  Files (fun n => match find (fun x => str_eqb (fst x) n) l with Some x => Ok (snd x) | None => f_json fs n end) (f_text fs).
Lemma put_files_ok fs l : NoDup (map fst l) -> written_to fs l (put_files fs l).
Proof.
  intros N. split; cbn [put_files f_json f_text].
  - intros n j I. induction l as [|[m k] l IH]; [destruct I|]. cbn [map fst] in N. inversion N as [|? ? Nm N']; subst. cbn [find fst]. destruct (str_eqb m n) eqn:E.
    + apply str_eqb_eq in E. subst m. destruct I as [I|I]; [now injection I as ->|]. exfalso. apply Nm. apply in_map_iff. now exists (n, j).
    + destruct I as [I|I]; [injection I as -> ->; now rewrite str_eqb_refl in E|]. now apply IH.
  - intros n N'. split; [|reflexivity]. assert (find (fun x => str_eqb (fst x) n) l = None) as ->; [|reflexivity].
    induction l as [|[m k] l IH]; [reflexivity|]. cbn [find fst]. cbn [map fst] in N, N'. inversion N; subst. destruct (str_eqb m n) eqn:E.
    + apply str_eqb_eq in E. subst m. exfalso. apply N'. now left.
    + apply IH; [assumption|]. intros I. apply N'. now right.
Qed.
Definition no_files : files := Files (fun _ => Err PyException) (fun _ => Err PyException).
Definition ends (e : d_end) : list (str * json) := match e with D_end _ l _ => l | D_usage => [] end.
Definition prints (e : d_end) : json := match e with D_end _ _ (O_json j) => j | _ => JNull end.

(** Three files, merged again *)
Definition ex_dir : str := lit "parts".
Definition ex_parts : list (str * json) := Eval vm_compute in ends (split_program toy_world P_file ex_dep [lit "3"; ex_dir]).
Lemma ex_parts_are : split_program toy_world P_file ex_dep [lit "3"; ex_dir] = D_end false ex_parts O_none
  /\ map fst ex_parts = [lit "parts/dep-export0.json"; lit "parts/dep-export1.json"; lit "parts/dep-export2.json"].
Proof. split; vm_compute; reflexivity. Qed.
Definition ex_together : json := Eval vm_compute in prints (merge_program toy_world 2 (put_files no_files ex_parts) (map fst ex_parts)).
Lemma ex_parts_merged : merge_program toy_world 2 (put_files no_files ex_parts) (map fst ex_parts) = D_end false [] (O_json ex_together).
Proof. vm_compute. reflexivity. Qed.
Lemma ex_chains : chains_agree (map snd (text_stamps (ex_gs1 ++ ex_gs2))).
Proof.
  intros l1 x y l2 E _. assert (forall z, In z (map snd (text_stamps (ex_gs1 ++ ex_gs2))) -> snd z = []) as H.
  { intros z Hz. cbn in Hz. repeat destruct Hz as [<-|Hz]; try reflexivity. destruct Hz. }
  rewrite (H x), (H y); [reflexivity| |]; rewrite E; apply in_or_app; right; cbn; auto.
Qed.

(** Eleven files: the names in alphabetical order are not in the order of the numbers. *)
Definition ex_t9 := Eval vm_compute in ex_signed (ex_rec (lit "9") (lit "2018-02-02T10:00:00") (lit "0,10") (ex_tc (lit "9") 270) ex_t8).
Definition ex_t10 := Eval vm_compute in ex_signed (ex_rec (lit "10") (lit "2018-02-02T11:00:00") (lit "0,10") (ex_tc (lit "10") 280) ex_t9).
Definition ex_t11 := Eval vm_compute in ex_signed (ex_rec (lit "11") (lit "2018-02-02T12:00:00") (lit "0,10") (ex_tc (lit "11") 290) ex_t10).
Definition ex_long : json := ex_dep_of [ex_group ex_cert_text [] [ex_t1; ex_t2; ex_t3; ex_t4; ex_t5; ex_t6; ex_t7; ex_t8; ex_t9; ex_t10; ex_t11]].
Definition ex_long_end : cluster := Eval vm_compute in fst (verifyDEP toy_world (load ex_long) ex_ks (Some ex_key) ex_start None).
Definition ex_eleven : list (str * json) := Eval vm_compute in ends (split_program toy_world P_file ex_long [lit "1"; ex_dir]).
Definition ex_sorted : list str := Eval vm_compute in map (part_name ex_dir) [0; 1; 10; 2; 3; 4; 5; 6; 7; 8; 9]%nat.
Definition ex_jumbled : json := Eval vm_compute in prints (merge_program toy_world 2 (put_files no_files ex_eleven) ex_sorted).
Definition ex_wrong : exn := Eval vm_compute in match snd (verifyDEP toy_world (load ex_jumbled) ex_ks (Some ex_key) ex_start None) with Some e => e | None => PyException end.
Fixpoint before_b (s t : list N) : bool :=
  match s, t with [], _ => true | _ :: _, [] => false | a :: s', b :: t' => if a <? b then true else if a =? b then before_b s' t' else false end.
Lemma before_b_ok s : forall t, before_b s t = true -> alphabetical s t.
Proof.
  induction s as [|a s IH]; intros [|b t] H; try discriminate; try apply al_end. cbn [before_b] in H. destruct (N.ltb_spec a b) as [L|L]; [now apply al_less|].
  destruct (N.eqb_spec a b) as [->|]; [|discriminate]. apply al_same. now apply IH.
Qed.
Fixpoint sorted_b (l : list (list N)) : bool := match l with [] => true | a :: r => forallb (before_b a) r && sorted_b r end.
Lemma sorted_b_ok l : sorted_b l = true -> StronglySorted alphabetical l.
Proof.
  induction l as [|a r IH]; intros H; [constructor|]. cbn [sorted_b] in H. apply andb_true_iff in H as [A B]. constructor; [now apply IH|].
  apply Forall_forall. intros x X. apply before_b_ok. rewrite forallb_forall in A. now apply A.
Qed.
Lemma alphabetical_breaks : exists w doc ks key c c' args written fs fs' names k dep e, hash_ok w /\ pem_ok w
  /\ verifyDEP w (load doc) ks key c None = (c', None)
  /\ split_program w P_file doc args = D_end false written O_none /\ written_to fs written fs'
  /\ Permutation names (map fst written) /\ StronglySorted alphabetical names
  /\ merge_program w k fs' names = D_end false [] (O_json dep) /\ snd (verifyDEP w (load dep) ks key c None) = Some e.
Proof.
  exists toy_world, ex_long, ex_ks, (Some ex_key), ex_start, ex_long_end, [lit "1"; ex_dir], ex_eleven, no_files, (put_files no_files ex_eleven), ex_sorted, 2%nat, ex_jumbled, ex_wrong.
  split; [exact toy_hash_ok|]. split; [exact toy_pem_ok|]. split; [vm_compute; reflexivity|]. split; [vm_compute; reflexivity|].
  assert (map fst ex_eleven = parts ex_dir 11) as E by (vm_compute; reflexivity).
  split; [apply put_files_ok; rewrite E; apply parts_distinct|]. split.
  - rewrite E. change ex_sorted with (map (part_name ex_dir) ([0; 1] ++ 10 :: [2; 3; 4; 5; 6; 7; 8; 9])%nat). change (parts ex_dir 11) with (map (part_name ex_dir) ([0; 1] ++ [2; 3; 4; 5; 6; 7; 8; 9] ++ [10])%nat).
    apply Permutation_map. apply Permutation_app_head. apply Permutation_cons_append.
  - split; [apply sorted_b_ok; vm_compute; reflexivity|]. split; vm_compute; reflexivity.
Qed.

(** A file is left from an earlier call. *)
Definition ex_earlier : files := put_files no_files [(part_name ex_dir 1, ex_dep1)].
Definition ex_single : list (str * json) := Eval vm_compute in ends (split_program toy_world P_file ex_dep1 [lit "9"; ex_dir]).
Definition ex_doubled : json := Eval vm_compute in prints (merge_program toy_world 2 (put_files ex_earlier ex_single) (parts ex_dir 2)).
Definition ex_twice : exn := Eval vm_compute in match snd (verifyDEP toy_world (load ex_doubled) ex_ks (Some ex_key) ex_start None) with Some e => e | None => PyException end.
Definition ex_dep1_end : cluster := Eval vm_compute in fst (verifyDEP toy_world (load ex_dep1) ex_ks (Some ex_key) ex_start None).
Lemma leftover_breaks : exists w doc ks key c c' args written fs fs' dir k dep e, hash_ok w /\ pem_ok w
  /\ verifyDEP w (load doc) ks key c None = (c', None)
  /\ split_program w P_file doc args = D_end false written O_none /\ written_to fs written fs'
  /\ (forall n, (exists j, f_json fs' n = Ok j) <-> In n (parts dir 2))
  /\ merge_program w k fs' (parts dir 2) = D_end false [] (O_json dep) /\ snd (verifyDEP w (load dep) ks key c None) = Some e.
Proof.
  exists toy_world, ex_dep1, ex_ks, (Some ex_key), ex_start, ex_dep1_end, [lit "9"; ex_dir], ex_single, ex_earlier, (put_files ex_earlier ex_single), ex_dir, 2%nat, ex_doubled, ex_twice.
  split; [exact toy_hash_ok|]. split; [exact toy_pem_ok|]. split; [vm_compute; reflexivity|]. split; [vm_compute; reflexivity|].
  assert (exists j, ex_single = [(part_name ex_dir 0, j)]) as (j0 & E) by (eexists; vm_compute; reflexivity).
  split; [apply put_files_ok; rewrite E; constructor; [now intros []|constructor]|]. split; [|split; vm_compute; reflexivity].
  intros n. rewrite E. unfold ex_earlier. cbn [put_files f_json find fst no_files]. change (parts ex_dir 2) with [part_name ex_dir 0; part_name ex_dir 1].
  destruct (str_eqb (part_name ex_dir 0) n) eqn:E0; [apply str_eqb_eq in E0; split; [intros _; now left|eauto]|].
  destruct (str_eqb (part_name ex_dir 1) n) eqn:E1; [apply str_eqb_eq in E1; split; [intros _; right; now left|eauto]|].
  split; [intros (j & H); discriminate H|]. intros [<-|[<-|[]]]; [now rewrite str_eqb_refl in E0|now rewrite str_eqb_refl in E1].
Qed.
