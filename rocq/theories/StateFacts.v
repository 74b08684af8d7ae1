(** Used receipt IDs and the serialisation of states. *)
From Coq Require Import Lia Permutation.
From Verif Require Import PyBase World Codec PyFloat PyTime Algo Receipt DepBase Json State ListFacts
  SpecReceipt ReceiptFacts KeyStore VerifyReceipt SpecDep DepParser Verify SpecCluster SeqFacts AcceptFacts SpecState DepTheorems.
Open Scope N_scope.
Open Scope py_scope.

(** ** Backends *)

(** Receipt IDs used in sequence, each checked first *)
Lemma use_ids_merge w l : forall u, use_ids w u l = used_merge_ids w u l.
Proof. induction l as [|x l IH]; intros u; [reflexivity|]. cbn [use_ids used_merge_ids]. destruct (used_check w u x); [|reflexivity]. apply IH. Qed.

Lemma use_ids_spec w l : forall u v,
  use_ids w u l = Ok v <-> fresh_ids w u true l /\ v = fold_left used_add l u.
Proof.
  induction l as [|x l IH]; intros u v; cbn [use_ids fresh_ids fold_left].
  - split; [intros H; apply Ok_inj in H; auto|]. now intros [_ ->].
  - destruct (used_check w u x) as [[]|e] eqn:C; cbn [bind].
    + rewrite IH. tauto.
    + split; [discriminate|]. intros [[H _] _]. now discriminate (H eq_refl).
Qed.

Lemma use_ids_app w a b u : use_ids w u (a ++ b) = (do v <- use_ids w u a; use_ids w v b).
Proof.
  revert u. induction a as [|x a IH]; intros u; [reflexivity|]. cbn [app use_ids].
  destruct (used_check w u x); [|reflexivity]. cbn [bind]. apply IH.
Qed.

Lemma NoDup_app_intro {A} (a b : list A) : NoDup a -> NoDup b -> (forall x, In x a -> ~ In x b) -> NoDup (a ++ b).
Proof.
  intros Na Nb D. induction Na as [|x a H Na IH]; [exact Nb|]. cbn [app]. constructor.
  - rewrite in_app_iff. intros [I|I]; [contradiction|]. apply (D x); [now left|exact I].
  - apply IH. intros y Hy. apply D. now right.
Qed.

Lemma fold_add_natural l : forall mi ma,
  fold_left used_add l (Natural mi ma) =
  match l with
  | [] => Natural mi ma
  | x :: _ => Natural (match mi with None => Some x | _ => mi end) (Some (last l []))
  end.
Proof.
  induction l as [|x l IH]; intros mi ma; [reflexivity|]. cbn [fold_left used_add]. rewrite IH.
  destruct l as [|y l]; [reflexivity|]. f_equal. destruct mi; reflexivity.
Qed.

Lemma fold_add_unique l : forall u, exists u', fold_left used_add l (Unique u) = Unique u'
  /\ (NoDup u -> NoDup u') /\ (forall x, In x u' <-> In x u \/ In x l).
Proof.
  induction l as [|x l IH]; intros u; cbn [fold_left].
  - exists u. split; [reflexivity|]. split; [auto|]. intros y. cbn [In]. tauto.
  - cbn [used_add]. destruct (mem x u) eqn:M.
    + destruct (IH u) as (u' & E & N & I). exists u'. split; [exact E|]. split; [exact N|].
      intros y. rewrite I. cbn [In]. apply mem_In in M. split; [tauto|]. intros [H|[<-|H]]; tauto.
    + destruct (IH (u ++ [x])) as (u' & E & N & I). exists u'. split; [exact E|]. split.
      * intros Nu. apply N. apply NoDup_app_intro; [exact Nu|repeat constructor; auto|].
        intros y Hy [<-|[]]. apply mem_In in Hy. congruence.
      * intros y. rewrite I, in_app_iff. cbn [In]. tauto.
Qed.

(** The sets of two used-ID objects are the same. *)
Lemma wf_used_new b : wf_used (used_new b).
Proof. destruct b; cbn; constructor. Qed.

Lemma wf_used_add u x : wf_used u -> wf_used (used_add u x).
Proof.
  destruct u as [a|mi ma]; cbn [used_add wf_used]; [|auto]. intros H. destruct (mem x a) eqn:M; [exact H|].
  cbn [wf_used]. apply NoDup_app_intro; [exact H|repeat constructor; auto|].
  intros y Hy [<-|[]]. apply mem_In in Hy. congruence.
Qed.

Lemma wf_used_fold l : forall u, wf_used u -> wf_used (fold_left used_add l u).
Proof. induction l as [|x l IH]; intros u H; [exact H|]. cbn [fold_left]. apply IH. now apply wf_used_add. Qed.

Lemma fold_add_nodup l : forall u, NoDup (u ++ l) -> fold_left used_add l (Unique u) = Unique (u ++ l).
Proof.
  induction l as [|x l IH]; intros u H; cbn [fold_left]; [now rewrite app_nil_r|]. cbn [used_add].
  assert (mem x u = false) as ->.
  { destruct (mem x u) eqn:M; [|reflexivity]. apply mem_In in M. apply NoDup_remove_2 in H. rewrite in_app_iff in H. tauto. }
  rewrite IH; rewrite <- app_assoc; [reflexivity|exact H].
Qed.

Lemma fresh_fold_unique w l : fresh_ids w (Unique []) true l -> fold_left used_add l (Unique []) = Unique l.
Proof.
  intros F. apply fresh_unique in F. assert (NoDup l) as N by (destruct l; [constructor|apply F]).
  exact (fold_add_nodup l [] N).
Qed.

Lemma fresh_app w a b : forall u c, fresh_ids w u c (a ++ b) <->
  fresh_ids w u c a /\ fresh_ids w (fold_left used_add a u) (match a with [] => c | _ => true end) b.
Proof.
  induction a as [|x a IH]; intros u c; cbn [app fresh_ids fold_left]; [tauto|]. rewrite IH.
  destruct a; tauto.
Qed.

(** A package of IDs that is fine on its own can be merged exactly if its IDs can be used one by one. *)
Lemma merge1_spec w u part v :
  use_ids w u part = Ok v <->
  exists p, use_ids w (used_new (backend_of u)) part = Ok p /\ used_merge1 w u p = Ok v.
Proof.
  destruct u as [ids|mi ma]; cbn [backend_of used_new].
  - split.
    + intros H. pose proof H as H'. apply use_ids_spec in H as [F ->]. exists (Unique part).
      assert (fresh_ids w (Unique []) true part) as F0.
      { apply fresh_unique in F. apply fresh_unique. destruct part as [|x r]; [exact I|].
        destruct F as (N & _ & _). split; [exact N|]. split; intros; tauto. }
      split; [|exact H']. apply use_ids_spec. split; [exact F0|]. symmetry. now apply (fresh_fold_unique w).
    + intros (p & Hp & H). apply use_ids_spec in Hp as [F0 ->]. rewrite (fresh_fold_unique w) in H by exact F0. exact H.
  - rewrite use_ids_spec. rewrite fold_add_natural, fresh_natural. split.
    + intros [[Inc B] ->]. exists (fold_left used_add part (Natural None None)). rewrite use_ids_spec, fresh_natural.
      split. { split; [|reflexivity]. split; [exact Inc|]. destruct part; constructor. }
      rewrite fold_add_natural. destruct part as [|x r]; [reflexivity|]. cbn [used_merge1].
      assert (used_check w (Natural mi ma) x = Ok tt) as ->.
      { destruct ma as [m|]; [|reflexivity]. apply used_check_natural. now apply B. }
      cbn [bind used_add]. f_equal. f_equal. destruct mi; reflexivity.
    + intros (p & Hp & H). apply use_ids_spec in Hp as [F0 ->]. apply fresh_natural in F0 as [Inc _].
      rewrite fold_add_natural in H. destruct part as [|x r].
      { cbn [used_merge1] in H. apply Ok_inj in H. subst. split; [split; constructor|reflexivity]. }
      cbn [used_merge1] in H. destruct (used_check w (Natural mi ma) x) as [[]|] eqn:C; [|discriminate].
      cbn [bind used_add] in H. apply Ok_inj in H. subst. split.
      * split; [exact Inc|]. destruct ma as [m|]; [|exact I]. intros _. now apply used_check_natural in C.
      * f_equal. destruct mi; reflexivity.
Qed.

Lemma merge1_backend w u p v : used_merge1 w u p = Ok v -> backend_of v = backend_of u.
Proof.
  destruct u as [a|mi ma], p as [b|mi' ma']; cbn [used_merge1]; try discriminate.
  - rewrite <- use_ids_merge. intros H. apply use_ids_spec in H as [_ ->]. destruct (fold_add_unique b a) as (u' & -> & _). reflexivity.
  - destruct mi', ma'; try (intros H; apply Ok_inj in H; subst; reflexivity).
    destruct (used_check _ _ _); [|discriminate]. cbn [bind]. intros H. apply Ok_inj in H. subst. reflexivity.
Qed.

Theorem merge_spec w parts : forall u v,
  use_ids w u (concat parts) = Ok v <->
  exists ps, Forall2 (fun part p => use_ids w (used_new (backend_of u)) part = Ok p) parts ps
    /\ used_merge w u ps = Ok v.
Proof.
  induction parts as [|part parts IH]; intros u v; cbn [concat].
  - split.
    + intros H. exists []. split; [constructor|exact H].
    + intros (ps & F & H). inversion F; subst. exact H.
  - rewrite use_ids_app. split.
    + intros H. apply bind_Ok in H as (u1 & H1 & H2). apply merge1_spec in H1 as (p & P & M).
      apply IH in H2 as (ps & F & H2). exists (p :: ps). split.
      * constructor; [exact P|]. now rewrite (merge1_backend _ _ _ _ M) in F.
      * cbn [used_merge]. rewrite M. exact H2.
    + intros (ps & F & H). inversion F as [|? p ? ps' P F']; subst. cbn [used_merge] in H.
      apply bind_Ok in H as (u1 & M & H). assert (use_ids w u part = Ok u1) as -> by (apply merge1_spec; eauto).
      cbn [bind]. apply IH. exists ps'. rewrite (merge1_backend _ _ _ _ M). auto.
Qed.

(** The order in which Python iterates over a set does not matter. *)
Theorem set_order w a a' l l' v : Permutation a a' -> Permutation l l' ->
  use_ids w (Unique a) l = Ok v -> exists v', use_ids w (Unique a') l' = Ok v' /\ same_used v v'.
Proof.
  intros Pa Pl H. apply use_ids_spec in H as [F ->].
  assert (NoDup l /\ forall y, In y l -> ~ In y a) as [N D].
  { apply fresh_unique in F. destruct l as [|x r]; [split; [constructor|intros y []]|]. destruct F as (N & A & B).
    split; [exact N|]. intros y [<-|Hy]; [now apply B|now apply A]. }
  assert (G : forall l a, NoDup l -> (forall y, In y l -> ~ In y a) ->
    fresh_ids w (Unique a) true l /\ fold_left used_add l (Unique a) = Unique (a ++ l)).
  { clear. intros l a N D. split.
    - apply fresh_unique. destruct l as [|x r]; [exact I|]. split; [exact N|]. split.
      + intros y Hy. apply D. now right.
      + intros _. apply D. now left.
    - revert a D. induction l as [|x l IH]; intros a D; cbn [fold_left]; [now rewrite app_nil_r|]. cbn [used_add].
      inversion N as [|? ? N1 N2]; subst.
      assert (mem x a = false) as ->.
      { destruct (mem x a) eqn:M; [|reflexivity]. apply mem_In in M. exfalso. apply (D x); [now left|exact M]. }
      rewrite IH; [now rewrite <- app_assoc|exact N2|]. intros y Hy. rewrite in_app_iff. cbn [In].
      intros [H|[<-|[]]]; [|contradiction]. apply (D y); [now right|exact H]. }
  destruct (G l a N D) as [_ E]. rewrite E.
  destruct (G l' a') as [F' E'].
  - now apply (Permutation_NoDup Pl).
  - intros y Hy. apply (Permutation_in y (Permutation_sym Pl)) in Hy. intros Ha.
    apply (D y Hy). now apply (Permutation_in y (Permutation_sym Pa)).
  - exists (Unique (a' ++ l')). split; [apply use_ids_spec; auto|]. cbn [same_used]. now apply Permutation_app.
Qed.

Theorem sorted_set w l v : use_ids w (used_new B_natural) l = Ok v -> exists v', use_ids w (used_new B_unique) l = Ok v'.
Proof.
  intros H. apply use_ids_spec in H as [F _]. apply fresh_natural in F as [F _]. apply increasing_NoDup in F.
  eexists. apply use_ids_spec. split; [|reflexivity]. apply fresh_unique. destruct l as [|x r]; [exact I|].
  split; [exact F|]. split; intros; tauto.
Qed.

(** ** Serialisation *)

Lemma dict_get_hd {A} k (v : A) d : dict_get ((k, v) :: d) k = Some v.
Proof. cbn [dict_get]. now rewrite str_eqb_refl. Qed.

Lemma opt_text_jopt o : opt_text (jopt o) = Ok o.
Proof. destruct o; reflexivity. Qed.

Lemma regstate_roundtrip r : regstate_of_dict (regstate_to_dict r) = Ok r.
Proof.
  unfold regstate_of_dict, regstate_to_dict. destruct r as [s l c n ch].
  cbn [s_start s_last s_counter s_restore s_chain].
  repeat match goal with |- context [dict_get ?d ?k] => let x := eval vm_compute in (dict_get d k) in change (dict_get d k) with x end.
  cbv iota. fold (jopt s) (jopt l) (jopt ch). rewrite !opt_text_jopt. reflexivity.
Qed.

Lemma texts_map l : texts (map JStr l) = Ok l.
Proof. induction l as [|x l IH]; [reflexivity|]. cbn [map texts]. rewrite IH. reflexivity. Qed.

Lemma texts_inv l t : texts l = Ok t -> l = map JStr t.
Proof.
  revert t. induction l as [|x l IH]; intros t; cbn [texts].
  - intros H. apply Ok_inj in H. now subst.
  - destruct x; try discriminate. intros H. apply bind_Ok in H as (t' & H' & H). apply Ok_inj in H. subst.
    cbn [map]. now rewrite (IH _ H').
Qed.


Lemma set_of_nodup l : NoDup l -> set_of l = Unique l.
Proof. intros N. exact (fold_add_nodup l [] N). Qed.

Lemma used_roundtrip u : wf_used u -> used_of_json (used_to_json u) = Ok u.
Proof.
  destruct u as [a|mi ma]; cbn [wf_used used_to_json used_of_json]; intros H.
  - rewrite dict_get_hd. change (dict_get [(k_btype, JStr k_unique); (k_bdata, JList (map JStr a))] k_bdata) with (Some (JList (map JStr a))).
    change (str_eqb k_unique k_unique) with true. cbv iota. rewrite texts_map. cbn [bind]. now rewrite set_of_nodup.
  - rewrite dict_get_hd.
    change (dict_get [(k_btype, JStr k_natural); (k_bdata, JDict [(k_min, jopt mi); (k_max, jopt ma)])] k_bdata)
      with (Some (JDict [(k_min, jopt mi); (k_max, jopt ma)])).
    change (str_eqb k_natural k_unique) with false. change (str_eqb k_natural k_natural) with true. cbv iota.
    rewrite dict_get_hd. change (dict_get [(k_min, jopt mi); (k_max, jopt ma)] k_max) with (Some (jopt ma)).
    rewrite !opt_text_jopt. reflexivity.
Qed.

Lemma mapM_map {A B C} (f : A -> B) (g : B -> result C) (h : A -> C) l :
  (forall x, g (f x) = Ok (h x)) -> mapM g (map f l) = Ok (map h l).
Proof.
  intros H. induction l as [|x l IH]; [reflexivity|]. cbn [map mapM]. rewrite H. cbn [bind]. now rewrite IH.
Qed.

Theorem cluster_roundtrip c : wf_used (c_used c) -> cluster_of_json (cluster_to_json c) = Ok c.
Proof.
  destruct c as [regs u]. cbn [c_used]. intros H. unfold cluster_to_json, cluster_of_json. cbn [c_regs c_used].
  rewrite dict_get_hd.
  match goal with |- context [dict_get ?d k_used] => change (dict_get d k_used) with (Some (used_to_json u)) end.
  rewrite (mapM_map _ _ (fun r => r)) by apply regstate_roundtrip. cbn [bind].
  rewrite used_roundtrip by assumption. cbn [bind]. now rewrite map_id.
Qed.

Lemma load_jopt o : load (jopt o) = jopt o.
Proof. destruct o; reflexivity. Qed.

Lemma load_used u : load (used_to_json u) = used_to_json u.
Proof.
  destruct u as [a|mi ma]; cbn [used_to_json].
  - assert (map load (map JStr a) = map JStr a) as E by (rewrite map_map; reflexivity).
    cbn [load map fst snd]. rewrite E. reflexivity.
  - cbn [load map fst snd]. rewrite !load_jopt. reflexivity.
Qed.

(** No key is repeated, so that nothing is lost by reading the file. *)
Lemma load_cluster c : load (cluster_to_json c) = cluster_to_json c.
Proof.
  unfold cluster_to_json. cbn [load map fst snd]. rewrite load_used, map_map.
  assert (map (fun r => load (JDict (regstate_to_dict r))) (c_regs c) = map (fun r => JDict (regstate_to_dict r)) (c_regs c)) as ->.
  { apply map_ext. intros r. unfold regstate_to_dict. cbn [load map fst snd]. rewrite !load_jopt. reflexivity. }
  reflexivity.
Qed.

Theorem cluster_file_roundtrip c : wf_used (c_used c) -> cluster_of_json (load (cluster_to_json c)) = Ok c.
Proof. rewrite load_cluster. apply cluster_roundtrip. Qed.

Lemma wf_used_read j u : used_of_json j = Ok u -> wf_used u.
Proof.
  unfold used_of_json. destruct j; try discriminate. destruct (dict_get d k_btype) as [[]|]; try discriminate.
  destruct (dict_get d k_bdata) as [data|]; [|discriminate]. destruct (str_eqb s k_unique).
  - destruct data; try discriminate. intros H. apply bind_Ok in H as (ids & _ & H). apply Ok_inj in H. subst.
    apply wf_used_fold. cbn. constructor.
  - destruct (str_eqb s k_natural); [|discriminate]. destruct data as [| | | | | |e]; try discriminate.
    destruct (dict_get e k_min), (dict_get e k_max); try discriminate. intros H.
    apply bind_Ok in H as (mi & _ & H). apply bind_Ok in H as (ma & _ & H). apply Ok_inj in H. subst. exact I.
Qed.

Theorem cluster_read_wf j c : cluster_of_json j = Ok c -> wf_used (c_used c).
Proof.
  unfold cluster_of_json. destruct j; try discriminate. destruct (dict_get d k_regs) as [[]|]; try discriminate.
  destruct (dict_get d k_used) as [ju|]; [|discriminate]. intros H. apply bind_Ok in H as (regs & _ & H).
  apply bind_Ok in H as (u & U & H). apply Ok_inj in H. subst. exact (wf_used_read _ _ U).
Qed.

(** ** States with the same set of IDs are interchangeable *)

Lemma same_used_fresh w u u' b l : same_used u u' -> fresh_ids w u b l -> fresh_ids w u' b l.
Proof.
  intros S F. destruct u as [a|mi ma], u' as [a'|mi' ma']; cbn [same_used] in S; try discriminate; [|now injection S as -> ->].
  apply fresh_unique in F. apply fresh_unique. destruct l as [|x r]; [exact I|]. destruct F as (N & A & B).
  split; [exact N|]. split.
  - intros y Hy Ha. apply (A y Hy). now apply (Permutation_in y (Permutation_sym S)).
  - intros E Ha. apply (B E). now apply (Permutation_in x (Permutation_sym S)).
Qed.

Lemma mem_perm x a b : Permutation a b -> mem x a = mem x b.
Proof.
  intros P. destruct (mem x a) eqn:A, (mem x b) eqn:B; try reflexivity; exfalso.
  - apply mem_In in A. apply (Permutation_in x P) in A. apply mem_In in A. congruence.
  - apply mem_In in B. apply (Permutation_in x (Permutation_sym P)) in B. apply mem_In in B. congruence.
Qed.

Lemma same_used_add u u' x : same_used u u' -> same_used (used_add u x) (used_add u' x).
Proof.
  intros S. destruct u as [a|mi ma], u' as [a'|mi' ma']; cbn [same_used] in S; try discriminate; [|now injection S as -> ->].
  cbn [used_add]. rewrite <- (mem_perm x a a' S). destruct (mem x a); cbn [same_used]; [exact S|]. now apply Permutation_app_tail.
Qed.

Lemma same_used_fold l : forall u u', same_used u u' -> same_used (fold_left used_add l u) (fold_left used_add l u').
Proof. induction l as [|x l IH]; intros u u' H; [exact H|]. cbn [fold_left]. apply IH. now apply same_used_add. Qed.

Lemma selects_used regs u u' idx before reg after :
  selects (Cluster regs u) idx before reg after -> selects (Cluster regs u') idx before reg after.
Proof.
  intros H. destruct H as [b r a E|idx E1 E2]; [now apply sel_old|]. exact (sel_new (Cluster regs u') idx E1 E2).
Qed.

Theorem same_state w dep ks key regs u u' idx c1 : hash_ok w -> same_used u u' ->
  verifyDEP w dep ks key (Cluster regs u) idx = (c1, None) ->
  exists c1', verifyDEP w dep ks key (Cluster regs u') idx = (c1', None)
    /\ c_regs c1' = c_regs c1 /\ same_used (c_used c1) (c_used c1').
Proof.
  intros HO S H. apply verifyDEP_spec in H as (b & reg & a & reg' & p & items & Se & D & P & V & R & ->); [|exact HO].
  exists (Cluster (b ++ reg' :: a) (used_after u' items)). split; [|split; [reflexivity|]].
  - apply verifyDEP_spec; [exact HO|]. exists b, reg, a, reg', p, items. split; [eapply selects_used; exact Se|]. split; [exact D|].
    split; [exact P|]. split; [|split; [exact R|reflexivity]]. destruct V as (V1 & V2 & V3 & V4 & V5).
    split; [exact V1|]. split; [exact V2|]. split; [exact V3|]. split; [exact V4|]. intros NE.
    destruct (V5 NE) as (q & Q1 & Q2 & Q3 & Q4). exists q. split; [exact Q1|]. split; [exact Q2|]. split; [exact Q3|].
    eapply same_used_fresh; eassumption.
  - cbn [c_used]. now apply same_used_fold.
Qed.

Lemma verify_wf w dep ks key c idx c' e : hash_ok w ->
  wf_used (c_used c) -> verifyDEP w dep ks key c idx = (c', e) -> wf_used (c_used c').
Proof.
  intros HO W H. destruct e as [e|].
  - apply failed_verifyDEP in H as [-> _]. exact W.
  - apply verifyDEP_spec in H as (b & reg & a & reg' & p & items & _ & _ & _ & _ & _ & ->); [|exact HO].
    cbn [c_used]. now apply wf_used_fold.
Qed.
