(** Facts about the command lines of split.py, merge.py and convert.py. *)
From Coq Require Import Lia.
From Verif Require Import PyBase ListFacts World Codec Receipt DepBase Json Pem KeyStore VerifyReceipt State DepParser Verify DepExport SpecReceipt SpecDep SpecCluster SpecDoc
  SpecChunks SpecKeys SpecMerge SpecExport AcceptFacts MergeFacts ExportFacts SplitFacts IncTheorems StateArgv SetupFacts DepArgv SpecDepArgv.
Open Scope N_scope.

Lemma name_parts_names dir l : forall i, map fst (name_parts dir i l) = map (part_name dir) (seq i (List.length l)).
Proof. induction l as [|j l IH]; intros i; [reflexivity|]. cbn [name_parts map List.length seq fst]. now rewrite IH. Qed.
Lemma name_parts_docs dir l : forall i, map snd (name_parts dir i l) = l.
Proof. induction l as [|j l IH]; intros i; [reflexivity|]. cbn [name_parts map snd]. now rewrite IH. Qed.
Lemma part_name_inj dir i j : part_name dir i = part_name dir j -> i = j.
Proof.
  unfold part_name. intros E. apply app_inv_head in E. apply app_inv_head in E. apply app_inv_tail in E. apply fmt_d_inj in E; lia.
Qed.
Lemma parts_names dir n : parts dir n = map (part_name dir) (seq 0 n).
Proof. reflexivity. Qed.
Lemma parts_distinct dir n : NoDup (parts dir n).
Proof. rewrite parts_names. apply FinFun.Injective_map_NoDup; [intros i j; apply part_name_inj|apply seq_NoDup]. Qed.

(** ** The command lines *)
Theorem split_usage w kind stdin args : split_program w kind stdin args = D_usage <->
  ~ (exists a dir, args = [a; dir]) \/ exists a dir z, args = [a; dir] /\ number_arg w a = Ok z /\ (z < 1)%Z.
Proof.
  split.
  - intros H. destruct args as [|a [|dir [|x r]]]; try (left; intros (? & ? & E); discriminate). cbn [split_program] in H.
    destruct (number_arg w a) as [z|] eqn:E; [|discriminate]. destruct (Z.ltb_spec z 1) as [L|L]; [|discriminate]. right. eauto 6.
  - intros [H|(a & dir & z & -> & E & L)].
    + destruct args as [|a [|dir [|x r]]]; try reflexivity. exfalso. eauto.
    + cbn [split_program]. rewrite E. destruct (Z.ltb_spec z 1); [reflexivity|lia].
Qed.

Theorem split_done w kind stdin args written out : split_program w kind stdin args = D_end false written out <->
  exists a dir z files, args = [a; dir] /\ number_arg w a = Ok z /\ (1 <= z)%Z /\ split_py w kind stdin (Z.to_nat z) = (files, None)
    /\ written = combine (parts dir (List.length files)) files /\ out = O_none.
Proof.
  assert (forall dir files i, name_parts dir i files = combine (map (part_name dir) (seq i (List.length files))) files) as NP.
  { intros dir files. induction files as [|f l IH]; intros i; [reflexivity|]. cbn [name_parts List.length seq map combine]. now rewrite IH. }
  split.
  - intros H. destruct args as [|a [|dir [|x r]]]; try discriminate. cbn [split_program] in H. destruct (number_arg w a) as [z|] eqn:E; [|discriminate].
    destruct (Z.ltb_spec z 1) as [L|L]; [discriminate|]. destruct (split_py w kind stdin (Z.to_nat z)) as [files [e|]] eqn:S; cbn [fst snd] in H; [discriminate|].
    injection H as <- <-. exists a, dir, z, files. rewrite parts_names, <- NP. auto 10.
  - intros (a & dir & z & files & -> & E & L & S & -> & ->). cbn [split_program]. rewrite E, S. destruct (Z.ltb_spec z 1); [lia|]. cbn [fst snd]. now rewrite NP, parts_names.
Qed.

Lemma merge_shape w k fs args :
  merge_program w k fs args = D_usage /\ ~ (exists merge names, merge_asks args merge names)
  \/ exists merge names, merge_asks args merge names /\ merge_program w k fs args =
       match mapM (f_json fs) names with
       | Err _ => D_end true [] O_none
       | Ok docs => match merge_py w merge k docs with Some (Ok d) => D_end false [] (O_json d) | _ => D_end true [] O_none end
       end.
Proof.
  unfold merge_program. destruct (Nat.ltb_spec (List.length args) 2) as [L|L].
  { left. split; [reflexivity|]. intros (merge & names & -> & L' & _). destruct merge; cbn [merge_words List.length] in L; lia. }
  destruct args as [|a r]; [cbn in L; lia|]. destruct (str_eqb a (lit "nomerge")) eqn:E.
  - apply str_eqb_eq in E. subst a. destruct (Nat.ltb_spec (List.length r) 2) as [L'|L'].
    + left. split; [reflexivity|]. intros (merge & names & Ea & L2 & N). destruct merge; cbn [merge_words] in Ea.
      * subst names. now apply N.
      * injection Ea as <-. lia.
    + right. exists false, r. split; [|reflexivity]. split; [reflexivity|]. split; [exact L'|discriminate].
  - destruct (Nat.ltb_spec (List.length (a :: r)) 2) as [L'|L']; [lia|]. right. exists true, (a :: r). split; [|reflexivity].
    split; [reflexivity|]. split; [exact L|]. intros _ H. injection H as ->. now rewrite str_eqb_refl in E.
Qed.
Lemma merge_asks_fun args m n m' n' : merge_asks args m n -> merge_asks args m' n' -> m = m' /\ n = n'.
Proof.
  intros (E & _ & H) (E' & _ & H'). subst args. destruct m, m'; cbn [merge_words] in E'.
  - auto.
  - subst n. exfalso. now apply H.
  - subst n'. exfalso. now apply H'.
  - injection E' as ->. auto.
Qed.
Theorem merge_usage w k fs args : merge_program w k fs args = D_usage <-> ~ (exists merge names, merge_asks args merge names).
Proof.
  destruct (merge_shape w k fs args) as [[E N]|(m & n & A & E)]; [tauto|]. split; [|intros H; exfalso; eauto]. intros H. rewrite E in H.
  destruct (mapM (f_json fs) n) as [docs|]; [|discriminate]. destruct (merge_py w m k docs) as [[d|]|]; discriminate.
Qed.
Theorem merge_done w k fs args written out : merge_program w k fs args = D_end false written out <->
  exists merge names docs d, merge_asks args merge names /\ Forall2 (fun n j => f_json fs n = Ok j) names docs
    /\ merge_py w merge k docs = Some (Ok d) /\ written = [] /\ out = O_json d.
Proof.
  split.
  - intros H. destruct (merge_shape w k fs args) as [[E N]|(m & n & A & E)]; rewrite E in H; [discriminate|].
    destruct (mapM (f_json fs) n) as [docs|] eqn:M; [|discriminate]. destruct (merge_py w m k docs) as [[d|]|] eqn:P; [|discriminate|discriminate].
    injection H as <- <-. exists m, n, docs, d. split; [exact A|]. split; [now apply mapM_Ok in M|auto].
  - intros (m & n & docs & d & A & F & P & -> & ->). destruct (merge_shape w k fs args) as [[E N]|(m' & n' & A' & E)]; [exfalso; eauto|].
    destruct (merge_asks_fun _ _ _ _ _ A A') as [<- <-]. rewrite E. apply mapM_Ok in F. now rewrite F, P.
Qed.

Theorem convert_usage w k doc text args : convert_program w k doc text args = D_usage <-> args <> [lit "json2csv"] /\ args <> [lit "csv2json"].
Proof.
  split.
  - intros H. split; intros ->; cbn in H; [destruct (json2csv w k doc)|destruct (csv2json w text)]; discriminate.
  - intros [A B]. destruct args as [|a [|b r]]; try reflexivity. cbn [convert_program]. destruct (str_eqb a (lit "json2csv")) eqn:E1.
    { apply str_eqb_eq in E1. congruence. } destruct (str_eqb a (lit "csv2json")) eqn:E2; [apply str_eqb_eq in E2; congruence|reflexivity].
Qed.
Theorem convert_done w k doc text args written out : convert_program w k doc text args = D_end false written out <->
  written = [] /\ (args = [lit "json2csv"] /\ (exists t, json2csv w k doc = Ok t /\ out = O_text t) \/ args = [lit "csv2json"] /\ exists d, csv2json w text = Ok d /\ out = O_json d).
Proof.
  split.
  - intros H. destruct args as [|a [|b r]]; try discriminate. cbn [convert_program] in H. destruct (str_eqb a (lit "json2csv")) eqn:E1.
    { apply str_eqb_eq in E1. subst a. destruct (json2csv w k doc) as [t|]; [|discriminate]. injection H as <- <-. split; [reflexivity|]. left. eauto. }
    destruct (str_eqb a (lit "csv2json")) eqn:E2; [|discriminate]. apply str_eqb_eq in E2. subst a. destruct (csv2json w text) as [t|]; [|discriminate].
    injection H as <- <-. split; [reflexivity|]. right. eauto.
  - intros [-> [(-> & t & E & ->)|(-> & t & E & ->)]]; cbn [convert_program].
    + change (str_eqb (lit "json2csv") (lit "json2csv")) with true. cbv iota. now rewrite E.
    + change (str_eqb (lit "csv2json") (lit "json2csv")) with false. change (str_eqb (lit "csv2json") (lit "csv2json")) with true. cbv iota. now rewrite E.
Qed.

(** ** Splitting, then merging *)

(** The texts in the parts *)
Lemma split_texts w kind doc n files gs : pem_ok w -> kind <> P_certless -> plain_names doc -> dep_doc w doc gs -> canonical_texts gs -> (1 <= n)%nat ->
  split_py w kind doc n = (files, None) ->
  exists gss, Forall2 (dep_doc w) files gss /\ Forall plain_names files /\ text_stamps (List.concat gss) = text_stamps gs
    /\ Forall (fun g => text_stamps g <> []) gss /\ Forall (texts_read w) gss.
Proof.
  intros P K Pl D Ca Hn S. destruct (split_contents w kind doc n files gs P K Pl D Hn S) as (gss & F & Fp & Tx & Sz).
  assert (Forall (fun x => canonical_text (fst x)) (text_stamps gs)) as Cs.
  { apply Forall_forall. intros [t [x y]] I. apply in_text_stamps in I as (g & G & T & _). unfold canonical_texts in Ca. rewrite Forall_forall in Ca.
    specialize (Ca g G). rewrite Forall_forall in Ca. now apply Ca. }
  assert (flat_map text_stamps gss = text_stamps gs /\ Forall (fun x => exists r, fromJWSString w (fst x) = Ok r) (text_stamps gs)) as [E R].
  { clear -Tx Cs. revert Tx Cs. generalize (text_stamps gs) (flat_map text_stamps gss). intros l m F. induction F as [|[t u] [t' u'] l m (r & h & J & W & U) F IH]; intros C; [split; [reflexivity|constructor]|].
    inversion C; subst. cbn [fst snd] in *. destruct IH as [-> R]; [assumption|]. destruct (text_read w t (r, h) J) as [_ A].
    rewrite (rewritten w t (r, h) t' A) by assumption. rewrite U. split; [reflexivity|]. constructor; [cbn [fst]; eauto|exact R]. }
  exists gss. split; [exact F|]. split; [exact Fp|]. rewrite text_stamps_concat. split; [exact E|]. split.
  - destruct gss as [|g gss] using rev_ind; [constructor|]. destruct (Sz gss g eq_refl) as [Z1 Z2]. apply Forall_app. split.
    + rewrite Forall_forall in *. intros y Y X. specialize (Z1 y Y). rewrite X in Z1. cbn in Z1. lia.
    + constructor; [|constructor]. intros X. rewrite X in Z2. cbn in Z2. lia.
  - rewrite <- E in R. rewrite Forall_forall in *. intros gs' G. unfold texts_read. apply Forall_forall. intros g Hg. apply Forall_forall. intros t T.
    apply (R (t, (gr_cert g, gr_chain g))). apply in_flat_map. exists gs'. split; [exact G|]. apply in_text_stamps. eauto 6.
Qed.

(** What merge.py writes, for texts in the usual encoding *)
Lemma merge_texts w merge n docs dep gss : pem_ok w -> Forall plain_names docs -> Forall2 (dep_doc w) docs gss -> docs <> [] ->
  Forall (fun x => canonical_text (fst x)) (text_stamps (List.concat gss)) -> merge_py w merge n docs = Some (Ok dep) ->
  exists gs, dep_doc w dep gs /\ plain_names dep
    /\ map (fun x => (fst x, fst (snd x))) (text_stamps gs) = map (fun x => (fst x, fst (snd x))) (text_stamps (List.concat gss))
    /\ (merge = false \/ chains_agree (map snd (text_stamps (List.concat gss))) -> text_stamps gs = text_stamps (List.concat gss))
    /\ (merge = true -> Forall (fun x => fst x = None) (map snd (text_stamps (List.concat gss))) -> certless gs).
Proof.
  intros P Pl D N Cs M. destruct (merge_groups w merge n docs dep gss P Pl D N M) as (rgs & gs & F1 & F3 & F4 & Dd & Pd & W).
  set (out := if merge then merged rgs else rgs) in *.
  assert (cs (stamps out) = cs (stamps rgs)) as Eo by (unfold out; destruct merge; [|reflexivity]; rewrite !cs_stamps; apply merged_certs).
  assert (cs (text_stamps gs) = cs (text_stamps (List.concat gss))) as Eq by exact (texts_back_certs w _ _ _ _ Cs F1 Eo (written_stamps w _ _ W)).
  assert (map snd (stamps rgs) = map snd (text_stamps (List.concat gss))) as S2.
  { clear -F1. revert F1. generalize (text_stamps (List.concat gss)). intros l F. induction F as [|y z l m [_ E] X IH]; [reflexivity|]. cbn [map]. rewrite IH. f_equal. symmetry. exact E. }
  assert (text_stamps (List.concat gss) <> []) as Ng.
  { inversion D as [|? g ? ? _ D']; subst; [congruence|]. inversion F4 as [|? ? H]; subst. cbn [List.concat]. rewrite text_stamps_app.
    destruct (text_stamps g); [congruence|discriminate]. }
  assert (text_stamps gs <> []) as Ns.
  { intros E. rewrite E in Eq. symmetry in Eq. apply map_eq_nil in Eq. contradiction. }
  exists gs. split; [exact Dd|]. split; [exact Pd|]. split; [exact Eq|]. split.
  - intros H. assert (stamps out = stamps rgs) as Es.
    { unfold out. destruct merge; [|reflexivity]. destruct H as [H|H]; [discriminate|]. apply merged_stamps. apply agree_neighbours; [exact F3|]. now rewrite S2. }
    apply (texts_back w _ _ _ Cs F1). rewrite <- Es. exact (written_stamps w _ _ W).
  - intros -> Cn. rewrite <- S2 in Cn. assert (Forall (fun g => rg_cert g = None) rgs) as Cr.
    { clear -Cn F3. induction F3 as [|g l Ne F IH]; [constructor|]. rewrite stamps_cons, map_app in Cn. apply Forall_app in Cn as [C1 C2]. constructor; [|now apply IH].
      destruct (rg_recs g); [congruence|]. now inversion C1. }
    destruct (merged_certless rgs) as (recs & ch & Em); [intros ->; apply Ng; now inversion F1|exact Cr|].
    unfold out in W. rewrite Em in W. inversion W as [|? g ? ? (_ & Wc & _) W']; subst. inversion W'; subst. exists g. split; [|exact Wc].
    unfold occupied. cbn [filter]. destruct (gr_texts g) eqn:Et; [|reflexivity]. exfalso. apply Ns. unfold text_stamps. cbn [flat_map]. now rewrite Et.
Qed.

Lemma combine_fst {A B} (l : list A) : forall m : list B, List.length l = List.length m -> map fst (combine l m) = l.
Proof. induction l as [|a l IH]; intros [|b m] E; try discriminate; [reflexivity|]. cbn [combine map fst]. f_equal. apply IH. now injection E. Qed.
Lemma combine_read {A B} (R : A -> B -> Prop) (l : list A) : forall m : list B, List.length l = List.length m -> (forall a b, In (a, b) (combine l m) -> R a b) -> Forall2 R l m.
Proof.
  induction l as [|a l IH]; intros [|b m] E H; try discriminate; [constructor|]. cbn [combine] in H. constructor; [apply H; now left|]. apply IH; [now injection E|].
  intros x y I. apply H. now right.
Qed.

Theorem split_merge w kind k doc gs fs args written out fs' merge : pem_ok w -> kind <> P_certless -> plain_names doc -> dep_doc w doc gs -> canonical_texts gs ->
  split_program w kind doc args = D_end false written out -> written_to fs written fs' -> (2 <= List.length written)%nat ->
  exists dep gs', merge_program w k fs' (merge_words merge (map fst written)) = D_end false [] (O_json dep) /\ dep_doc w dep gs' /\ plain_names dep
    /\ with_certs gs' = with_certs gs
    /\ (merge = false \/ chains_agree (map snd (text_stamps gs)) -> text_stamps gs' = text_stamps gs)
    /\ (merge = true -> certless gs -> certless gs').
Proof.
  intros P K Pl D Ca S [Wr _] L. apply split_done in S as (a & dir & z & files & -> & A & Lz & S & -> & ->).
  assert (List.length (parts dir (List.length files)) = List.length files) as Le by (unfold parts; now rewrite map_length, seq_length).
  destruct (split_texts w kind doc (Z.to_nat z) files gs P K Pl D Ca ltac:(lia) S) as (gss & F & Fp & Tx & Ne & Rd).
  destruct (merge_exists w merge k files gss P Fp F Ne Rd) as (dep & M).
  assert (files <> []) as Nf by (intros ->; destruct (parts dir 0); cbn in L; lia).
  assert (Forall (fun x => canonical_text (fst x)) (text_stamps (List.concat gss))) as Cs.
  { rewrite Tx. apply Forall_forall. intros [t [x y]] I. apply in_text_stamps in I as (g & G & T & _). unfold canonical_texts in Ca. rewrite Forall_forall in Ca.
    specialize (Ca g G). rewrite Forall_forall in Ca. now apply Ca. }
  destruct (merge_texts w merge k files dep gss P Fp F Nf Cs M) as (gs' & D' & P' & E1 & E2 & E3). rewrite Tx in *.
  exists dep, gs'. split; [|split; [exact D'|split; [exact P'|split; [exact E1|split; [exact E2|]]]]].
  - apply merge_done. exists merge, (parts dir (List.length files)), files, dep. rewrite combine_fst by exact Le. rewrite combine_length, Le, Nat.min_id in L.
    split; [split; [reflexivity|split; [lia|]]|split; [apply combine_read; [exact Le|exact Wr]|auto]].
    intros _. unfold parts. destruct files as [|f l]; [congruence|]. cbn [List.length seq map hd_error]. intros H. injection H as H.
    assert (In 47 (lit "nomerge")) as I; [rewrite <- H; apply in_or_app; right; now left|]. cbn in I. intuition discriminate.
  - intros -> C. apply E3; [reflexivity|]. now apply certless_stamps.
Qed.

Theorem split_merge_verdict w kind k doc gs fs args written out fs' merge dep ks key c idx before reg after c' : hash_ok w -> pem_ok w -> kind <> P_certless ->
  plain_names doc -> dep_doc w doc gs -> canonical_texts gs ->
  all_certs (occupied gs) /\ (merge = false \/ chains_agree (map snd (text_stamps gs))) \/ certless gs /\ merge = true ->
  split_program w kind doc args = D_end false written out -> written_to fs written fs' -> (2 <= List.length written)%nat ->
  merge_program w k fs' (merge_words merge (map fst written)) = D_end false [] (O_json dep) -> selects c idx before reg after ->
  verifyDEP w (load doc) ks key c idx = (c', None) <-> verifyDEP w (load dep) ks key c idx = (c', None).
Proof.
  intros HO P K Pl D Ca Ce S Wr L M Sl. destruct (split_merge w kind k doc gs fs args written out fs' merge P K Pl D Ca S Wr L) as (dep' & gs' & M' & D' & _ & E1 & E2 & E3).
  rewrite M in M'. injection M' as <-.
  rewrite <- (in_turn_one w ks key (same_register before) (load doc)), <- (in_turn_one w ks key (same_register before) (load dep)).
  assert (text_stamps gs <> []) as N.
  { apply split_done in S as (a & dir & z & files & -> & A & Lz & S & -> & ->).
    destruct (split_texts w kind doc (Z.to_nat z) files gs P K Pl D Ca ltac:(lia) S) as (gss & F & Fp & Tx & Ne & Rd). rewrite <- Tx.
    destruct F as [|f g files gss Df F]; [rewrite combine_nil in L; cbn in L; lia|]. inversion Ne; subst. cbn [List.concat]. rewrite text_stamps_app. destruct (text_stamps g); [congruence|discriminate]. }
  assert (text_stamps gs' <> []) as N'.
  { intros E. unfold with_certs in E1. rewrite E in E1. cbn [map] in E1. symmetry in E1. apply map_eq_nil in E1. contradiction. }
  assert (trust_rule w ks (occupied gs) <-> trust_rule w ks (occupied gs')) as T.
  { destruct Ce as [[A B]|[A ->]].
    - specialize (E2 B). assert (Forall (fun x => fst x <> None) (map snd (text_stamps gs))) as A' by (apply occupied_stamp; exact A).
      rewrite (trust_all w ks gs A'). rewrite (trust_all w ks gs'); rewrite E2; [reflexivity|exact A'].
    - split; intros _; [apply certless_trust, E3; auto|now apply certless_trust]. }
  unfold with_certs in E1.
  assert (Forall2 (dep_is w) [load doc] [gs]) as D1 by (constructor; [now apply load_doc|constructor]).
  assert (Forall2 (dep_is w) [load dep] [gs']) as D2 by (constructor; [now apply load_doc|constructor]).
  assert (Forall (fun g => text_stamps g <> []) [gs]) as N1 by (constructor; [exact N|constructor]).
  assert (Forall (fun g => text_stamps g <> []) [gs']) as N2 by (constructor; [exact N'|constructor]).
  assert (map (fun x => (fst x, fst (snd x))) (text_stamps (List.concat [gs])) = map (fun x => (fst x, fst (snd x))) (text_stamps (List.concat [gs']))) as Eq
    by (cbn [List.concat]; rewrite !app_nil_r; now symmetry).
  split; intros V.
  - refine (same_receipts w ks key [load doc] [load dep] [gs] [gs'] c idx before reg after c' HO Sl _ _ D1 D2 N1 N2 Eq _ V); [discriminate|discriminate|].
    intros X. inversion X; subst. constructor; [now apply T|constructor].
  - refine (same_receipts w ks key [load dep] [load doc] [gs'] [gs] c idx before reg after c' HO Sl _ _ D2 D1 N2 N1 (eq_sym Eq) _ V); [discriminate|discriminate|].
    intros X. inversion X; subst. constructor; [now apply T|constructor].
Qed.
