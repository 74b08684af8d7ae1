(** The event stream and its prefixes. *)
From Coq Require Import Lia ZifyClasses ZifyNat ZifyBool.
From Verif Require Import PyBase World Codec Receipt Json Pem DepParser ListFacts SpecCluster SpecDoc AcceptFacts SpecChunks ChunkFacts.
Open Scope N_scope.
Open Scope py_scope.

(** ** Induction over documents *)

Fixpoint json_nested (P : json -> Prop)
  (H0 : P JNull) (H1 : forall b, P (JBool b)) (H2 : forall z, P (JInt z)) (H3 : forall f, P (JFloat f)) (H4 : forall s, P (JStr s))
  (H5 : forall l, Forall P l -> P (JList l))
  (H6 : forall d, Forall (fun kv => P (snd kv)) d -> P (JDict d)) (j : json) : P j :=
  let rec := json_nested P H0 H1 H2 H3 H4 H5 H6 in
  match j with
  | JNull => H0 | JBool b => H1 b | JInt z => H2 z | JFloat f => H3 f | JStr s => H4 s
  | JList l => H5 l ((fix go l : Forall P l := match l with [] => Forall_nil _ | x :: r => Forall_cons _ (rec x) (go r) end) l)
  | JDict d => H6 d ((fix go d : Forall (fun kv => P (snd kv)) d :=
                        match d with [] => Forall_nil _ | kv :: r => Forall_cons _ (rec (snd kv)) (go r) end) d)
  end.

(** ** The shape of event streams *)

Fixpoint list_events (path : list str) (l : list json) : list (str * event) :=
  match l with
  | [] => [(dotted (rev path), E_end_array)]
  | x :: r => events (k_item :: path) x ++ list_events path r
  end.
Fixpoint dict_events (path : list str) (d : list (str * json)) : list (str * event) :=
  match d with
  | [] => [(dotted (rev path), E_end_map)]
  | (k, x) :: r => (dotted (rev path), E_map_key k) :: events (k :: path) x ++ dict_events path r
  end.

Lemma events_list path l : events path (JList l) = (dotted (rev path), E_start_array) :: list_events path l.
Proof. cbn [events]. f_equal. induction l as [|x l IH]; [reflexivity|]. cbn [list_events]. now rewrite <- IH. Qed.
Lemma events_dict path d : events path (JDict d) = (dotted (rev path), E_start_map) :: dict_events path d.
Proof. cbn [events]. f_equal. induction d as [|[k x] d IH]; [reflexivity|]. cbn [dict_events]. now rewrite <- IH. Qed.

Fixpoint list_items (prefix : str) (path : list str) (l : list json) : list json :=
  match l with [] => [] | x :: r => items prefix (k_item :: path) x ++ list_items prefix path r end.
Fixpoint dict_items (prefix : str) (path : list str) (d : list (str * json)) : list json :=
  match d with [] => [] | (k, x) :: r => items prefix (k :: path) x ++ dict_items prefix path r end.

Lemma items_list prefix path l : dotted (rev path) <> prefix -> items prefix path (JList l) = list_items prefix path l.
Proof.
  intros N. cbn [items]. apply str_eqb_neq in N. rewrite N. induction l as [|x l IH]; [reflexivity|]. cbn [list_items]. now rewrite <- IH.
Qed.
Lemma items_dict prefix path d : dotted (rev path) <> prefix -> items prefix path (JDict d) = dict_items prefix path d.
Proof.
  intros N. cbn [items]. apply str_eqb_neq in N. rewrite N. induction d as [|[k x] d IH]; [reflexivity|]. cbn [dict_items]. now rewrite <- IH.
Qed.

(** ** Prefixes *)

(** Paths below a path *)
Definition below (path : list str) (p : str) : Prop := exists ext, p = dotted (rev (ext ++ path)).

Lemma below_self path : below path (dotted (rev path)).
Proof. exists []. reflexivity. Qed.
Lemma below_cons k path p : below (k :: path) p -> below path p.
Proof. intros [ext ->]. exists (ext ++ [k]). now rewrite <- app_assoc. Qed.

Lemma events_below j : forall path, Forall (fun e => below path (fst e)) (events path j).
Proof.
  induction j as [|b|z|f|s|l IH|d IH] using json_nested; intros path; try (cbn [events]; constructor; [apply below_self|constructor]).
  - rewrite events_list. constructor; [apply below_self|]. induction IH as [|x l Hx _ IH]; cbn [list_events].
    + constructor; [apply below_self|constructor].
    + apply Forall_app. split; [|exact IH]. eapply Forall_impl; [|apply Hx]. intros e. apply below_cons.
  - rewrite events_dict. constructor; [apply below_self|]. induction IH as [|[k x] d Hx _ IH]; cbn [dict_events].
    + constructor; [apply below_self|constructor].
    + constructor; [apply below_self|]. apply Forall_app. split; [|exact IH]. cbn [snd] in Hx.
      eapply Forall_impl; [|apply Hx]. intros e. apply below_cons.
Qed.

Lemma items_none prefix j : forall path, ~ below path prefix -> items prefix path j = [].
Proof.
  induction j as [|b|z|f|s|l IH|d IH] using json_nested; intros path N;
    assert (dotted (rev path) <> prefix) as N' by (intros <-; apply N, below_self);
    try (cbn [items]; apply str_eqb_neq in N'; now rewrite N').
  - rewrite items_list by exact N'. clear N'. induction IH as [|x l Hx _ IH]; [reflexivity|]. cbn [list_items].
    rewrite Hx, IH; [reflexivity|]. intros B. now apply N, (below_cons k_item).
  - rewrite items_dict by exact N'. clear N'. induction IH as [|[k x] d Hx _ IH]; [reflexivity|]. cbn [dict_items]. cbn [snd] in Hx.
    rewrite Hx, IH; [reflexivity|]. intros B. now apply N, (below_cons k).
Qed.

(** What follows the first name *)
Definition dot_tail (l : list str) : str := match l with [] => [] | _ => c_dot :: join [c_dot] l end.
Lemma join_tail k l : join [c_dot] (k :: l) = k ++ dot_tail l.
Proof. destruct l; [cbn; now rewrite app_nil_r|reflexivity]. Qed.

Lemma below_head k p : below [k] p -> exists l, p = k ++ dot_tail l.
Proof. intros [ext ->]. rewrite rev_app_distr. exists (rev ext). apply join_tail. Qed.
Lemma below_group k p : below [k; k_item; k_bg] p -> exists l, p = p_item ++ c_dot :: k ++ dot_tail l.
Proof.
  intros [ext ->]. rewrite rev_app_distr. exists (rev ext). cbn [rev app].
  change (dotted (k_bg :: k_item :: k :: rev ext)) with (k_bg ++ [c_dot] ++ k_item ++ [c_dot] ++ join [c_dot] (k :: rev ext)).
  rewrite join_tail. reflexivity.
Qed.

Lemma dot_free_app k k' l l' : dot_free k -> dot_free k' -> k ++ dot_tail l = k' ++ dot_tail l' -> k = k'.
Proof.
  unfold dot_free. revert k'. induction k as [|x k IH]; intros k' F F' E; destruct k' as [|x' k']; [reflexivity| | |].
  - exfalso. destruct l; [discriminate|]. cbn [app dot_tail] in E. injection E as E _. apply F'. now left.
  - exfalso. destruct l'; [discriminate|]. cbn [app dot_tail] in E. injection E as E _. apply F. now left.
  - cbn [app] in E. injection E as -> E. f_equal. apply IH; [|  |exact E]; intros H; [apply F|apply F']; now right.
Qed.

Lemma bg_dot_free : dot_free k_bg. Proof. unfold dot_free. cbv. intuition discriminate. Qed.
Lemma cert_dot_free : dot_free k_cert. Proof. unfold dot_free. cbv. intuition discriminate. Qed.
Lemma certs_dot_free : dot_free k_certs. Proof. unfold dot_free. cbv. intuition discriminate. Qed.
Lemma recs_dot_free : dot_free k_recs. Proof. unfold dot_free. cbv. intuition discriminate. Qed.

(** Unknown elements of the file *)
Lemma unknown_root k p : k <> [] -> dot_free k -> k <> k_bg -> below [k] p -> p <> [] /\ p <> k_bg /\ (forall l, p <> p_item ++ l).
Proof.
  intros N F B H. apply below_head in H as [l ->]. split; [destruct k; [congruence|discriminate]|]. split.
  - intros E. apply B. apply (dot_free_app k k_bg l []); [exact F|exact bg_dot_free|]. rewrite E. symmetry. apply app_nil_r.
  - intros l' E. apply B. change p_item with (k_bg ++ c_dot :: k_item) in E. rewrite <- app_assoc in E. clear -F E.
    revert E. generalize bg_dot_free. generalize k_bg as k'. intros k' F' E. unfold dot_free in *. revert k' F' E.
    induction k as [|x k IH]; intros [|x' k'] F' E; [reflexivity| | |].
    + exfalso. destruct l; [discriminate|]. cbn [app dot_tail] in E. injection E as E _. apply F'. now left.
    + exfalso. cbn [app] in E. injection E as E _. apply F. now left.
    + cbn [app] in E. injection E as -> E. f_equal. apply IH; [| |exact E]; intros H; [apply F|apply F']; now right.
Qed.

(** Unknown elements of a group *)
Lemma unknown_group k k' p : dot_free k -> dot_free k' -> k <> k' -> below [k; k_item; k_bg] p -> p <> p_item ++ c_dot :: k'.
Proof.
  intros F F' N H E. apply below_group in H as [l ->]. apply app_inv_head in E. injection E as E. apply N.
  apply (dot_free_app k k' l []); [exact F|exact F'|]. rewrite E. symmetry. apply app_nil_r.
Qed.
Lemma group_not_item k p : below [k; k_item; k_bg] p -> p <> p_item.
Proof.
  intros H E. apply below_group in H as [l ->]. rewrite <- (app_nil_r p_item) in E at 2. apply app_inv_head in E. discriminate.
Qed.

(** ** Certificates looked up by the file parser *)

Lemma dict_items_none prefix path d : Forall (fun kv => ~ below (fst kv :: path) prefix) d -> dict_items prefix path d = [].
Proof. induction 1 as [|[k x] d H _ IH]; [reflexivity|]. cbn [dict_items]. cbn [fst] in H. now rewrite items_none, IH. Qed.

Lemma dict_items_app prefix path a b : dict_items prefix path (a ++ b) = dict_items prefix path a ++ dict_items prefix path b.
Proof. induction a as [|[k x] a IH]; [reflexivity|]. cbn [app dict_items]. now rewrite IH, app_assoc. Qed.

Lemma group_items k v d : dot_free k -> Forall (fun kv => dot_free (fst kv)) d -> once d k v ->
  items (p_item ++ c_dot :: k) [k_item; k_bg] (JDict d) = [load v].
Proof.
  intros Fk F (a & b & -> & Na & Nb). rewrite items_dict.
  - apply Forall_app in F as [Fa F]. inversion F as [|? ? _ Fb]; subst. rewrite dict_items_app. cbn [dict_items].
    assert (forall l, Forall (fun kv => dot_free (fst kv)) l -> ~ In k (map fst l) -> dict_items (p_item ++ c_dot :: k) [k_item; k_bg] l = []) as H.
    { intros l Fl Nl. apply dict_items_none. apply Forall_forall. intros [k' x] Hk B. cbn [fst] in B. rewrite Forall_forall in Fl.
      specialize (Fl _ Hk). cbn [fst] in Fl. destruct (list_eq_dec N.eq_dec k' k) as [->|Ne].
      - apply Nl. apply (in_map fst) in Hk. exact Hk.
      - now apply (unknown_group k' k _ Fl Fk Ne B). }
    rewrite (H a), (H b) by assumption. rewrite app_nil_r. cbn [app].
    replace (p_item ++ c_dot :: k) with (dotted (rev [k; k_item; k_bg])).
    + destruct v; cbn [items]; now rewrite str_eqb_refl.
    + cbn [rev app]. change (dotted [k_bg; k_item; k]) with (k_bg ++ [c_dot] ++ k_item ++ [c_dot] ++ k). reflexivity.
  - intros E. change (dotted (rev [k_item; k_bg])) with p_item in E. rewrite <- (app_nil_r p_item) in E at 1. apply app_inv_head in E. discriminate.
Qed.

Lemma load_texts l : load (JList (map JStr l)) = JList (map JStr l).
Proof. cbn [load]. now rewrite map_map. Qed.

(** The elements [k] of all groups *)
Lemma doc_items k d js vs : dot_free k -> Forall (fun kv => fst kv <> [] /\ dot_free (fst kv)) d ->
  once d k_bg (JList js) ->
  Forall2 (fun j v => exists g, j = JDict g /\ Forall (fun kv => dot_free (fst kv)) g /\ once g k v) js vs ->
  items (p_item ++ c_dot :: k) [] (JDict d) = map load vs.
Proof.
  intros Fk F (a & b & -> & Na & Nb) G. rewrite items_dict by discriminate.
  assert (forall l, Forall (fun kv => fst kv <> [] /\ dot_free (fst kv)) l -> ~ In k_bg (map fst l) -> dict_items (p_item ++ c_dot :: k) [] l = []) as H.
  { intros l Fl Nl. apply dict_items_none. apply Forall_forall. intros [k' x] Hk B. cbn [fst] in B. rewrite Forall_forall in Fl.
    destruct (Fl _ Hk) as [F1 F2]. cbn [fst] in F1, F2. destruct (list_eq_dec N.eq_dec k' k_bg) as [->|Ne].
    - apply Nl. apply (in_map fst) in Hk. exact Hk.
    - destruct (unknown_root k' _ F1 F2 Ne B) as (_ & _ & X). now apply (X (c_dot :: k)). }
  apply Forall_app in F as [Fa F]. inversion F as [|? ? _ Fb]; subst. rewrite dict_items_app. cbn [dict_items].
  rewrite (H a), (H b) by assumption. rewrite app_nil_r. cbn [app].
  rewrite items_list.
  - clear -Fk G. induction G as [|j v js vs (g & -> & Fg & O) G IH]; [reflexivity|]. cbn [list_items map].
    rewrite (group_items k v g Fk Fg O), IH. reflexivity.
  - intros E. apply (f_equal (@List.length _)) in E. rewrite app_length in E.
    change (List.length (dotted (rev [k_bg]))) with 13%nat in E. change (List.length p_item) with 18%nat in E. lia.
Qed.
