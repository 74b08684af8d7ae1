(** Facts about key stores in INI files. *)
From Coq Require Import Lia ZifyClasses ZifyN ZifyNat ZifyBool.
From Verif Require Import PyBase ListFacts World Codec CodecFacts CodecFacts2 PyFloat Json Pem PemFacts KeyStore IntFacts KeyFacts DepBase DepParser DepExport
  KeyStoreCli SpecKeys SpecStore SpecCluster SpecKeyStoreCli IncTheorems RoundTrip2 ConvertFacts KeyStoreCliFacts.
Open Scope N_scope.
Open Scope py_scope.

(** ** IDs *)

Lemma rp_cons a b c d x r : ~ (x = a /\ hd_error r = Some b) -> replace_pair a b c d (x :: r) = x :: replace_pair a b c d r.
Proof.
  intros H. cbn [replace_pair]. destruct r as [|y r]; [reflexivity|]. destruct ((x =? a) && (y =? b)) eqn:E; [|reflexivity].
  exfalso. apply H. cbn [hd_error]. apply andb_prop in E as [E1 E2]. apply N.eqb_eq in E1, E2. now subst.
Qed.
Lemma rp_pair a b c d r : replace_pair a b c d (a :: b :: r) = c :: d :: replace_pair a b c d r.
Proof. cbn [replace_pair]. now rewrite !N.eqb_refl. Qed.
Lemma rp_hd a b c d s h : hd_error (replace_pair a b c d s) = Some h -> hd_error s = Some h \/ h = c.
Proof.
  destruct s as [|x [|y r]]; cbn [replace_pair hd_error]; auto.
  destruct ((x =? a) && (y =? b)); cbn [hd_error]; intros H; apply Some_inj in H; subst; auto.
Qed.

Lemma to_hd s h : hd_error (id_to_ini s) = Some h -> hd_error s = Some h \/ In h [103; 117; 115].
Proof.
  unfold id_to_ini. intros H. apply rp_hd in H as [H| ->]; [|right; now left]. apply rp_hd in H as [H| ->]; [|right; right; now left].
  apply rp_hd in H as [H| ->]; [now left|right; right; right; now left].
Qed.

Lemma to_keep x r : ~ (In x [83; 85; 71] /\ hd_error r = Some c_colon) -> id_to_ini (x :: r) = x :: id_to_ini r.
Proof.
  intros H. unfold id_to_ini. rewrite rp_cons; [rewrite rp_cons; [rewrite rp_cons; [reflexivity|]|]|].
  - intros [-> E]. apply rp_hd in E as [E|E]; [|discriminate]. apply rp_hd in E as [E|E]; [|discriminate]. apply H. split; [cbn; auto|exact E].
  - intros [-> E]. apply rp_hd in E as [E|E]; [|discriminate]. apply H. split; [cbn; auto|exact E].
  - intros [-> E]. apply H. split; [cbn; auto|exact E].
Qed.
Lemma of_keep x r : ~ (In x [115; 117; 103] /\ hd_error r = Some c_semi) -> id_of_ini (x :: r) = x :: id_of_ini r.
Proof.
  intros H. unfold id_of_ini. rewrite rp_cons; [rewrite rp_cons; [rewrite rp_cons; [reflexivity|]|]|].
  - intros [-> E]. apply rp_hd in E as [E|E]; [|discriminate]. apply rp_hd in E as [E|E]; [|discriminate]. apply H. split; [cbn; auto|exact E].
  - intros [-> E]. apply rp_hd in E as [E|E]; [|discriminate]. apply H. split; [cbn; auto|exact E].
  - intros [-> E]. apply H. split; [cbn; auto|exact E].
Qed.

Definition lower (x : N) : N := x + 32.
Lemma to_pair x r : In x [83; 85; 71] -> id_to_ini (x :: c_colon :: r) = lower x :: c_semi :: id_to_ini r.
Proof.
  intros [<-|[<-|[<-|[]]]]; unfold id_to_ini.
  - rewrite rp_pair. rewrite !(rp_cons 85), !(rp_cons 71); try (intros [? _]; discriminate). reflexivity.
  - rewrite (rp_cons 83) by (intros [? _]; discriminate). rewrite (rp_cons 83) by (intros [? _]; discriminate). rewrite rp_pair.
    rewrite !(rp_cons 71) by (intros [? _]; discriminate). reflexivity.
  - rewrite !(rp_cons 83), !(rp_cons 85) by (intros [? _]; discriminate). rewrite rp_pair. reflexivity.
Qed.
Lemma of_pair x r : In x [83; 85; 71] -> id_of_ini (lower x :: c_semi :: r) = x :: c_colon :: id_of_ini r.
Proof.
  intros [<-|[<-|[<-|[]]]]; unfold id_of_ini, lower.
  - change (83 + 32) with 115. rewrite rp_pair. rewrite !(rp_cons 117), !(rp_cons 103); try (intros [? _]; discriminate). reflexivity.
  - change (85 + 32) with 117. rewrite !(rp_cons 115) by (intros [? _]; discriminate). rewrite rp_pair.
    rewrite !(rp_cons 103) by (intros [? _]; discriminate). reflexivity.
  - change (71 + 32) with 103. rewrite !(rp_cons 115), !(rp_cons 117) by (intros [? _]; discriminate). rewrite rp_pair. reflexivity.
Qed.

Definition no_pairs (s : str) : Prop := ~ pair_in 115 c_semi s /\ ~ pair_in 117 c_semi s /\ ~ pair_in 103 c_semi s.
Lemma no_pairs_tail x s : no_pairs (x :: s) -> no_pairs s.
Proof.
  intros (A & B & C). split; [|split]; intros (p & q & E); [apply A|apply B|apply C]; exists (x :: p), q; now rewrite E.
Qed.

Lemma id_there_and_back s : no_pairs s -> id_of_ini (id_to_ini s) = s.
Proof.
  remember (List.length s) as n eqn:L. assert (List.length s <= n)%nat as Le by lia. clear L. revert s Le.
  induction n as [|n IH]; intros s Le H.
  - destruct s; [reflexivity|cbn [List.length] in Le; lia].
  - destruct s as [|x r]; [reflexivity|]. cbn [List.length] in Le.
    destruct (in_dec N.eq_dec x [83; 85; 71]) as [I|I].
    + destruct r as [|y r].
      * rewrite to_keep by (intros [_ E]; discriminate). rewrite of_keep by (intros [_ E]; discriminate). reflexivity.
      * destruct (N.eq_dec y c_colon) as [->|Ny].
        -- rewrite to_pair, of_pair by exact I. rewrite IH; [reflexivity|cbn [List.length] in Le; lia|]. now apply no_pairs_tail, no_pairs_tail in H.
        -- rewrite to_keep by (intros [_ E]; cbn in E; congruence). rewrite of_keep.
           ++ rewrite IH; [reflexivity|lia|now apply no_pairs_tail in H].
           ++ intros [[E|[E|[E|[]]]] _]; subst x; destruct I as [I|[I|[I|[]]]]; discriminate.
    + rewrite to_keep by (intros [E _]; contradiction). rewrite of_keep.
      * rewrite IH; [reflexivity|lia|now apply no_pairs_tail in H].
      * intros [J E]. apply to_hd in E as [E|E].
        -- destruct r as [|y r]; [discriminate|]. cbn in E. apply Some_inj in E. subst y. destruct H as (A & B & C).
           destruct J as [J|[J|[J|[]]]]; subst x; [apply A|apply B|apply C]; exists [], r; reflexivity.
        -- destruct E as [E|[E|[E|[]]]]; discriminate.
Qed.

(** Characters of converted IDs *)
Lemma to_in s c : In c (id_to_ini s) -> In c s \/ In c [115; 117; 103; c_semi].
Proof.
  remember (List.length s) as n eqn:L. assert (List.length s <= n)%nat as Le by lia. clear L. revert s Le.
  induction n as [|n IH]; intros s Le H.
  - destruct s; [now left|cbn [List.length] in Le; lia].
  - destruct s as [|x r]; [now left|]. cbn [List.length] in Le.
    destruct (in_dec N.eq_dec x [83; 85; 71]) as [I|I]; [destruct r as [|y r]; [|destruct (N.eq_dec y c_colon) as [->|Ny]]|].
    + rewrite to_keep in H by (intros [_ E]; discriminate). destruct H as [H|[]]. left. now left.
    + rewrite to_pair in H by exact I. destruct H as [H|[H|H]].
      * right. subst c. destruct I as [<-|[<-|[<-|[]]]]; cbn; auto.
      * right. cbn. auto.
      * apply IH in H as [H|H]; [left; right; now right|now right|cbn [List.length] in Le; lia].
    + rewrite to_keep in H by (intros [_ E]; cbn in E; congruence). destruct H as [H|H]; [left; now left|].
      apply IH in H as [H|H]; [left; now right|now right|lia].
    + rewrite to_keep in H by (intros [E _]; contradiction). destruct H as [H|H]; [left; now left|].
      apply IH in H as [H|H]; [left; now right|now right|lia].
Qed.

(** Colons disappear if each one is converted. *)
Lemma to_no_colon s : (forall p q, s = p ++ c_colon :: q -> exists p' x, p = p' ++ [x] /\ In x [83; 85; 71]) -> ~ In c_colon (id_to_ini s).
Proof.
  assert (forall n s, (List.length s <= n)%nat -> (forall p q, s = p ++ c_colon :: q -> exists p' x, p = p' ++ [x] /\ In x [83; 85; 71]) -> ~ In c_colon (id_to_ini s)) as X; [|now apply (X (List.length s))].
  clear s. induction n as [|n IH]; intros s Le H C.
  - destruct s; [destruct C|cbn [List.length] in Le; lia].
  - destruct s as [|x r]; [destruct C|]. cbn [List.length] in Le.
    assert (x <> c_colon) as Nx. { intros ->. destruct (H [] r eq_refl) as (p' & y & E & _). destruct p'; discriminate. }
    assert (hd_error r <> Some c_colon \/ In x [83; 85; 71] -> forall p q, r = p ++ c_colon :: q -> p = [] \/ exists p' x, p = p' ++ [x] /\ In x [83; 85; 71]) as Tl.
    { intros _ p q ->. destruct (H (x :: p) q eq_refl) as (p' & y & E & I). destruct p' as [|z p'].
      - left. now injection E as _ ->.
      - right. injection E as _ ->. eauto. }
    destruct (in_dec N.eq_dec x [83; 85; 71]) as [I|I]; [destruct r as [|y r]; [|destruct (N.eq_dec y c_colon) as [->|Ny]]|].
    + rewrite to_keep in C by (intros [_ E]; discriminate). destruct C as [C|[]]. congruence.
    + rewrite to_pair in C by exact I. destruct C as [C|[C|C]].
      * destruct I as [<-|[<-|[<-|[]]]]; discriminate.
      * discriminate.
      * revert C. apply IH; [cbn [List.length] in Le; lia|]. intros p q ->.
        destruct (H (x :: c_colon :: p) q eq_refl) as (p' & z & E & J). destruct p' as [|z1 [|z2 p']].
        -- discriminate.
        -- injection E as _ E _. subst. destruct J as [J|[J|[J|[]]]]; discriminate.
        -- injection E as _ _ ->. eauto.
    + rewrite to_keep in C by (intros [_ E]; cbn in E; congruence). destruct C as [C|C]; [congruence|].
      revert C. apply IH; [lia|]. intros p q E. destruct (Tl (or_intror I) p q E) as [->|T]; [|exact T]. injection E as E _. contradiction.
    + rewrite to_keep in C by (intros [E _]; contradiction). destruct C as [C|C]; [congruence|].
      revert C. apply IH; [lia|]. intros p q E. destruct p as [|p0 p].
      * exfalso. destruct (H [x] q ltac:(now rewrite E)) as (p' & z & E' & J). destruct p' as [|? [|? ?]]; try discriminate. injection E' as ->. contradiction.
      * subst r. destruct (H (x :: p0 :: p) q eq_refl) as (p' & z & E' & J). destruct p' as [|z1 p']; [discriminate|]. injection E' as _ E'. rewrite E'. eauto.
Qed.

Lemma to_nonempty s : s <> [] -> id_to_ini s <> [].
Proof.
  destruct s as [|x r]; [contradiction|]. intros _. destruct (in_dec N.eq_dec x [83; 85; 71]) as [I|I].
  - destruct r as [|y r]; [rewrite to_keep by (intros [_ E]; discriminate); discriminate|]. destruct (N.eq_dec y c_colon) as [->|Ny].
    + now rewrite to_pair by exact I.
    + rewrite to_keep by (intros [_ E]; cbn in E; congruence). discriminate.
  - rewrite to_keep by (intros [E _]; contradiction). discriminate.
Qed.

(** The last character: that of the ID, or a semicolon *)
Lemma to_last s c : hd_error (rev (id_to_ini s)) = Some c -> hd_error (rev s) = Some c \/ c = c_semi.
Proof.
  assert (forall n s, (List.length s <= n)%nat -> hd_error (rev (id_to_ini s)) = Some c -> hd_error (rev s) = Some c \/ c = c_semi) as X; [|now apply (X (List.length s))].
  assert (forall (x : N) r, hd_error (rev (x :: r)) = match r with [] => Some x | _ => hd_error (rev r) end) as Rv.
  { intros x r. cbn [rev]. destruct r as [|y r]; [reflexivity|]. cbn [rev]. destruct (rev r) as [|z t]; reflexivity. }
  clear s. induction n as [|n IH]; intros s Le H.
  - destruct s; [discriminate|cbn [List.length] in Le; lia].
  - destruct s as [|x r]; [discriminate|]. cbn [List.length] in Le.
    assert (id_to_ini (x :: r) = x :: id_to_ini r -> hd_error (rev (x :: r)) = Some c \/ c = c_semi) as Keep.
    { intros E. rewrite E, Rv in H. rewrite Rv. destruct r as [|y r]; [left; exact H|].
      pose proof (to_nonempty (y :: r) ltac:(discriminate)) as N. destruct (id_to_ini (y :: r)) as [|z t] eqn:E'; [contradiction|].
      apply IH; [lia|]. rewrite E'. exact H. }
    destruct (in_dec N.eq_dec x [83; 85; 71]) as [I|I]; [destruct r as [|y r]; [|destruct (N.eq_dec y c_colon) as [->|Ny]]|].
    + apply Keep. apply to_keep. intros [_ E]; discriminate.
    + rewrite to_pair in H by exact I. rewrite Rv, Rv in H. rewrite Rv, Rv. destruct r as [|z r].
      * right. apply Some_inj in H. now subst.
      * pose proof (to_nonempty (z :: r) ltac:(discriminate)) as N. destruct (id_to_ini (z :: r)) as [|z' t] eqn:E'; [contradiction|].
        apply IH; [cbn [List.length] in *; lia|]. rewrite E'. exact H.
    + apply Keep, to_keep. intros [_ E]; cbn in E; congruence.
    + apply Keep, to_keep. intros [E _]; contradiction.
Qed.

(** What INI files need *)
Definition clean_option (w : world) (o : str) : Prop :=
  o <> [] /\ no_edge_space w o /\ ~ In c_nl o /\ ~ In 13 o /\ ~ In c_eq o /\ ~ In c_colon o
  /\ (forall c, hd_error o = Some c -> ~ In c [c_hash; c_semi; 91]).

Lemma clean_id w i : ini_id w i -> clean_option w (id_to_ini i).
Proof.
  intros (Ne & Sp & Nl & Cr & Eq & Col & P1 & P2 & P3 & Hd). split; [now apply to_nonempty|].
  assert (forall c, ~ In c i -> ~ In c [115; 117; 103; c_semi] -> ~ In c (id_to_ini i)) as Not.
  { intros c N1 N2 H. apply to_in in H as [H|H]; auto. }
  split; [split|].
  - intros c t E. assert (hd_error (id_to_ini i) = Some c) as H by now rewrite E. apply to_hd in H as [H|H]; [apply Sp; now left|].
    destruct H as [<-|[<-|[<-|[]]]]; reflexivity.
  - intros c t E. assert (hd_error (rev (id_to_ini i)) = Some c) as H by (rewrite E, rev_app_distr; reflexivity).
    apply to_last in H as [H| ->]; [apply Sp; now right|reflexivity].
  - split; [apply Not; [exact Nl|cbv; intuition discriminate]|]. split; [apply Not; [exact Cr|cbv; intuition discriminate]|].
    split; [apply Not; [exact Eq|cbv; intuition discriminate]|]. split; [now apply to_no_colon|].
    intros c H. apply to_hd in H as [H|H]; [now apply Hd|]. destruct H as [<-|[<-|[<-|[]]]]; cbv; intuition discriminate.
Qed.

(** ** Lines *)

Definition clean_value (w : world) (v : str) : Prop := v <> [] /\ no_edge_space w v /\ ~ In c_nl v /\ ~ In 13 v.
Definition clean_section (w : world) (s : section) : Prop :=
  Forall (fun kv => clean_option w (fst kv) /\ clean_value w (snd kv)) s /\ NoDup (map fst s).

Lemma option_line_spec o v : ~ In c_eq o -> ~ In c_colon o -> option_line (o ++ c_eq :: v) = Some (o, v).
Proof.
  intros E C. induction o as [|x o IH]; cbn [app option_line]; [now rewrite N.eqb_refl|].
  destruct (x =? c_eq) eqn:X1; [apply N.eqb_eq in X1; subst; exfalso; apply E; now left|].
  destruct (x =? c_colon) eqn:X2; [apply N.eqb_eq in X2; subst; exfalso; apply C; now left|].
  cbn [orb]. rewrite IH; [reflexivity|intros H; apply E; now right|intros H; apply C; now right].
Qed.

Lemma rstrip_id w s : no_edge_space w s -> rstrip (char_isspace w) s = s.
Proof.
  intros [_ H]. unfold rstrip. rewrite lstrip_id; [apply rev_involutive|]. intros c t E. apply (H c (rev t)).
  rewrite <- (rev_involutive s), E. reflexivity.
Qed.
Lemma rstrip_blank w s c : char_isspace w c = true -> rstrip (char_isspace w) (s ++ [c]) = rstrip (char_isspace w) s.
Proof. intros H. unfold rstrip. now apply lstrip_blank_end. Qed.

Lemma edges_app w a b : a <> [] -> b <> [] -> no_edge_space w a -> no_edge_space w b -> forall m, no_edge_space w (a ++ m ++ b).
Proof.
  intros Na Nb [Ha _] [_ Hb] m. split.
  - intros c t E. destruct a as [|x a]; [contradiction|]. injection E as -> _. now apply (Ha c a).
  - intros c t E. destruct (exists_last Nb) as (b' & x & ->). rewrite !app_assoc in E. apply app_inj_tail in E as [_ ->].
    now apply (Hb c b').
Qed.

Lemma comment_free c : ~ In c [c_hash; c_semi; 91] -> (c =? c_hash) || (c =? c_semi) = false /\ (c =? 91) = false.
Proof. intros H. cbn in H. lia. Qed.

Definition in_section (name opt : str) (sects : list (str * list (str * list str))) : ini_state :=
  IniState [] sects (Some name) opt 0 false.

Lemma option_step w name sects opt o v : name <> s_default -> clean_option w o -> clean_value w v ->
  dict_get (current (in_section name opt sects) name) o = None ->
  ini_line w (in_section name opt sects) ((o ++ lit " = " ++ v) ++ [c_nl])
  = Ok (in_section name o (dict_set sects name (dict_set (current (in_section name opt sects) name) o [v]))).
Proof.
  intros Nd (Ne & Sp & Nl & Cr & Eq & Col & Hd) (Nv & Sv & _ & _) G. unfold ini_line.
  rewrite strip_blank_end by apply nl_space.
  assert (no_edge_space w (o ++ lit " = " ++ v)) as Ed by now apply edges_app.
  rewrite strip_id by exact Ed. assert (exists x o', o = x :: o') as (x & o' & Eo) by (destruct o; [contradiction|eauto]).
  assert (hd_error o = Some x) as Hx by now subst. specialize (Hd x Hx). apply comment_free in Hd as [Hc Hb].
  assert (o ++ lit " = " ++ v = x :: skipn 1 (o ++ lit " = " ++ v)) as Cons by now subst.
  rewrite Cons at 1. rewrite Hc. rewrite Cons at 1. cbn iota.
  assert (lstrip (char_isspace w) ((o ++ lit " = " ++ v) ++ [c_nl]) = (o ++ lit " = " ++ v) ++ [c_nl]) as Ls.
  { apply lstrip_id. intros c t E. subst o. injection E as -> _. destruct Sp as [Sp _]. now apply (Sp c o'). }
  rewrite Ls, Nat.sub_diag. cbn [is_sect is_indent in_section]. cbn [Nat.ltb Nat.leb andb].
  assert (section_header (o ++ lit " = " ++ v) = None) as Sh.
  { rewrite Cons. unfold section_header. now rewrite Hb. }
  rewrite Sh. change (o ++ lit " = " ++ v) with (o ++ [32] ++ c_eq :: 32 :: v). rewrite app_assoc, option_line_spec.
  - rewrite rstrip_blank by reflexivity. rewrite rstrip_id by exact Sp. fold (in_section name opt sects). rewrite G.
    unfold set_current. destruct (str_eqb name s_default) eqn:D; [apply str_eqb_eq in D; contradiction|].
    cbn [is_defaults is_sections is_sect is_error in_section]. destruct o as [|? ?]; [discriminate|]. cbn [nonempty negb orb].
    unfold in_section. do 2 f_equal. f_equal. f_equal. f_equal. change (32 :: v) with ([32] ++ v). unfold strip at 1.
    cbn [app lstrip]. change (char_isspace w 32) with true. cbn iota. fold (strip (char_isspace w) v). now rewrite strip_id.
  - rewrite in_app_iff. intros [H|[H|[]]]; [now apply Eq|discriminate].
  - rewrite in_app_iff. intros [H|[H|[]]]; [now apply Col|discriminate].
Qed.

Definition section_lines (name : str) (s : section) : list str :=
  (91 :: name ++ [93]) :: map (fun kv => fst kv ++ lit " = " ++ snd kv) s ++ [[]].

Lemma get_last {A} (pre : list (str * A)) name x : dict_get pre name = None -> dict_get (pre ++ [(name, x)]) name = Some x.
Proof.
  induction pre as [|[k v] pre IH]; cbn [app dict_get]; [now rewrite str_eqb_refl|]. destruct (str_eqb k name); [discriminate|exact IH].
Qed.
Lemma set_last {A} (pre : list (str * A)) name x y : dict_get pre name = None -> dict_set (pre ++ [(name, x)]) name y = pre ++ [(name, y)].
Proof.
  induction pre as [|[k v] pre IH]; cbn [app dict_get dict_set]; [now rewrite str_eqb_refl|].
  destruct (str_eqb k name); [discriminate|]. intros H. now rewrite IH.
Qed.

Lemma current_last pre name opt x : name <> s_default -> dict_get pre name = None ->
  current (in_section name opt (pre ++ [(name, x)])) name = x.
Proof.
  intros Nd G. unfold current. destruct (str_eqb name s_default) eqn:D; [apply str_eqb_eq in D; contradiction|].
  cbn [is_sections in_section]. now rewrite get_last.
Qed.

Definition as_lines (s : section) : list (str * list str) := map (fun kv => (fst kv, [snd kv])) s.

Lemma options_steps w name pre s : name <> s_default -> dict_get pre name = None -> forall done opt,
  clean_section w (done ++ s) ->
  exists opt', ini_lines w (in_section name opt (pre ++ [(name, as_lines done)])) (map (fun kv => (fst kv ++ lit " = " ++ snd kv) ++ [c_nl]) s)
    = Ok (in_section name opt' (pre ++ [(name, as_lines (done ++ s))]))
    /\ (s = [] /\ opt' = opt \/ exists s' v, s = s' ++ [(opt', v)]).
Proof.
  intros Nd G. induction s as [|[o v] s IH]; intros done opt [F N].
  - exists opt. rewrite app_nil_r. split; [reflexivity|now left].
  - cbn [map ini_lines fst snd].
    assert (clean_option w o /\ clean_value w v) as [Co Cv].
    { rewrite Forall_app in F. destruct F as [_ F]. now apply Forall_inv in F. }
    assert (~ In o (map fst done)) as Ni.
    { rewrite map_app in N. cbn [map fst] in N. apply NoDup_remove_2 in N. intros H. apply N. apply in_or_app. now left. }
    assert (map fst (as_lines done) = map fst done) as Keys by (unfold as_lines; rewrite map_map; reflexivity).
    rewrite option_step; [|exact Nd|exact Co|exact Cv|].
    + cbn [bind]. rewrite current_last, set_last by assumption. rewrite set_fresh by now rewrite Keys.
      replace (as_lines done ++ [(o, [v])]) with (as_lines (done ++ [(o, v)])) by (unfold as_lines; now rewrite map_app).
      destruct (IH (done ++ [(o, v)]) o) as (opt' & E & L). { rewrite <- app_assoc. now split. }
      exists opt'. rewrite E, <- app_assoc. split; [reflexivity|]. right. destruct L as [[-> ->]|(s' & v' & ->)].
      * now exists [], v.
      * now exists ((o, v) :: s'), v'.
    + rewrite current_last by assumption. apply get_none. now rewrite Keys.
Qed.

Lemma joined_lines w s : clean_section w s -> joined w (as_lines s) = s.
Proof.
  intros [F _]. induction F as [|[o v] s [_ (_ & Sv & _)] F IH]; [reflexivity|]. unfold joined, as_lines in *. cbn [map fst snd join] in *.
  rewrite IH. cbn [snd] in Sv. now rewrite rstrip_id.
Qed.

Lemma blank_step w name opt pre s : name <> s_default -> dict_get pre name = None -> clean_section w s ->
  (s = [] /\ opt = [] \/ exists s' v, s = s' ++ [(opt, v)]) ->
  exists x, ini_line w (in_section name opt (pre ++ [(name, as_lines s)])) [c_nl] = Ok (in_section name opt (pre ++ [(name, x)]))
    /\ joined w x = s.
Proof.
  intros Nd G C [[-> ->]|(s' & v & ->)].
  - exists []. split; reflexivity.
  - destruct C as [F N]. pose proof F as F'. rewrite Forall_app in F'. destruct F' as [F' Fv]. apply Forall_inv in Fv. cbn [fst snd] in Fv.
    destruct Fv as [(Ne & _) (Nv & Sv & _)].
    assert (dict_get (as_lines s') opt = None) as Gs.
    { apply get_none. unfold as_lines. rewrite map_map. cbn [fst]. rewrite map_app in N. cbn [map fst] in N.
      apply NoDup_remove_2 in N. rewrite app_nil_r in N. exact N. }
    exists (as_lines s' ++ [(opt, [v; []])]). split.
    + unfold ini_line. change (strip (char_isspace w) [c_nl]) with ([] : str). cbn iota. cbn [is_sect in_section is_opt].
      assert (forall A (a b : A), match opt with [] => a | _ => b end = b) as Mo by (destruct opt; [contradiction|reflexivity]). rewrite Mo. unfold append_line. fold (in_section name opt (pre ++ [(name, as_lines (s' ++ [(opt, v)]))])).
      cbn [is_opt in_section]. fold (in_section name opt (pre ++ [(name, as_lines (s' ++ [(opt, v)]))])). rewrite !current_last by assumption.
      replace (as_lines (s' ++ [(opt, v)])) with (as_lines s' ++ [(opt, [v])]) by (unfold as_lines; now rewrite map_app).
      rewrite get_last by exact Gs. unfold set_current. destruct (str_eqb name s_default) eqn:D; [apply str_eqb_eq in D; contradiction|].
      cbn [is_sections in_section is_defaults is_sect is_opt is_indent is_error]. rewrite !set_last by assumption. reflexivity.
    + unfold joined. rewrite map_app. cbn [map fst snd join]. f_equal.
      * apply (joined_lines w s'). split; [exact F'|]. rewrite map_app in N. cbn [map] in N. apply NoDup_remove_1 in N. now rewrite app_nil_r in N.
      * rewrite app_nil_r. rewrite rstrip_blank by reflexivity. now rewrite rstrip_id.
Qed.

Lemma header_of name : name <> [] -> section_header (91 :: name ++ [93]) = Some name.
Proof.
  intros N. unfold section_header. cbn [N.eqb Pos.eqb]. rewrite rev_app_distr. cbn [rev app lstrip]. cbn [N.eqb Pos.eqb negb tl].
  rewrite rev_involutive. now destruct name.
Qed.

Lemma header_step w sects sect opt name : name <> [] -> name <> s_default -> ~ In c_nl name -> dict_get sects name = None ->
  ini_line w (IniState [] sects sect opt 0 false) ((91 :: name ++ [93]) ++ [c_nl]) = Ok (in_section name [] (sects ++ [(name, [])])).
Proof.
  intros Ne Nd Nl G. unfold ini_line. rewrite strip_blank_end by apply nl_space.
  rewrite strip_id by (split; [intros c t E; injection E as <- _; reflexivity|
    intros c t E; change (91 :: name ++ [93]) with ((91 :: name) ++ [93]) in E; apply app_inj_tail in E as [_ <-]; reflexivity]).
  cbn [N.eqb Pos.eqb orb]. cbn iota. change ((91 =? c_hash) || (91 =? c_semi)) with false. cbn iota.
  cbn [app lstrip]. change (char_isspace w 91) with false. cbn iota. rewrite Nat.sub_diag. cbn [is_indent is_sect Nat.ltb Nat.leb andb].
  rewrite header_of by exact Ne. destruct (str_eqb name s_default) eqn:D; [apply str_eqb_eq in D; contradiction|].
  cbn [is_sections is_defaults is_error]. rewrite G. now destruct sect.
Qed.

Lemma ini_lines_app w a : forall b s, ini_lines w s (a ++ b) = (do s' <- ini_lines w s a; ini_lines w s' b).
Proof.
  induction a as [|l a IH]; intros b s; [reflexivity|]. cbn [app ini_lines]. destruct (ini_line w s l); cbn [bind]; [apply IH|reflexivity].
Qed.

Lemma section_steps w sects sect opt name s : name <> [] -> name <> s_default -> ~ In c_nl name -> dict_get sects name = None ->
  clean_section w s ->
  exists x opt', ini_lines w (IniState [] sects sect opt 0 false) (map (fun l => l ++ [c_nl]) (section_lines name s))
    = Ok (in_section name opt' (sects ++ [(name, x)])) /\ joined w x = s.
Proof.
  intros Ne Nd Nl G C. unfold section_lines. cbn [map ini_lines]. rewrite header_step by assumption. cbn [bind].
  rewrite map_app, map_map, ini_lines_app.
  destruct (options_steps w name sects s Nd G [] [] C) as (opt' & E & L). cbn [as_lines map app] in E.
  match goal with |- context [ini_lines w ?a (map ?f s)] => replace (ini_lines w a (map f s)) with (Ok (in_section name opt' (sects ++ [(name, as_lines s)])) : result ini_state) by (symmetry; exact E) end.
  cbn [bind map ini_lines app].
  destruct (blank_step w name opt' sects s Nd G C) as (x & B & J); [destruct L as [[-> ->]|L]; [now left|now right]|].
  exists x, opt'. split; [|exact J]. exact (f_equal (fun m => do s' <- m; Ok s') B).
Qed.

Lemma value_id v : ~ In c_nl v -> ini_value v = v.
Proof.
  unfold ini_value. induction v as [|c v IH]; [reflexivity|]. intros H. cbn [map List.concat]. destruct (N.eqb_spec c c_nl); [subst; exfalso; apply H; now left|].
  cbn [app]. f_equal. apply IH. intros X. apply H. now right.
Qed.

Lemma section_text_lines w name s : clean_section w s ->
  section_text name s = List.concat (map (fun l => l ++ [c_nl]) (section_lines name s)).
Proof.
  intros [F _]. unfold section_text, section_lines. cbn [map List.concat]. rewrite map_app, concat_app, map_map. cbn [map List.concat app].
  f_equal. rewrite <- !app_assoc. f_equal. cbn [app]. f_equal. f_equal. f_equal. induction F as [|[o v] s [_ (_ & _ & Nl & _)] F IH]; [reflexivity|].
  cbn [map List.concat fst snd] in *. rewrite IH, value_id by exact Nl. now rewrite <- !app_assoc.
Qed.

Definition clean_line (l : str) : Prop := ~ In c_nl l /\ ~ In 13 l.
Lemma section_clean w name s : clean_line name -> clean_section w s -> Forall clean_line (section_lines name s).
Proof.
  intros [N1 N2] [F _]. unfold section_lines. constructor.
  - split; intros [H|H]; try discriminate; apply in_app_or in H as [H|[H|[]]]; (contradiction || discriminate).
  - apply Forall_app. split; [|constructor; [split; intros []|constructor]]. apply Forall_map. eapply Forall_impl; [|exact F].
    intros [o v] [(_ & _ & A1 & A2 & _) (_ & _ & B1 & B2)]. cbn [fst snd] in *.
    split; rewrite !in_app_iff; intros [H|[H|H]]; try contradiction; cbn in H; intuition discriminate.
Qed.

Lemma clean_text ls : Forall clean_line ls -> ~ In 13 (List.concat (map (fun l => l ++ [c_nl]) ls)).
Proof.
  induction 1 as [|l ls [_ H] F IH]; [intros []|]. cbn [map List.concat]. intros X.
  apply in_app_or in X as [X|X]; [apply in_app_or in X as [X|[X|[]]]; [contradiction|discriminate]|contradiction].
Qed.

Theorem ini_there_and_back w certs keys : clean_section w certs -> clean_section w keys ->
  let c := Ini [] [(s_certificates, certs); (s_public_keys, keys)] in ini_read w (ini_text c) = Ok c.
Proof.
  intros Cc Ck. cbn zeta. unfold ini_read, ini_text. cbn [ini_defaults ini_sections map List.concat app fst snd].
  rewrite app_nil_r, !(section_text_lines w) by assumption. rewrite <- concat_app, <- map_app.
  assert (Forall clean_line (section_lines s_certificates certs ++ section_lines s_public_keys keys)) as Cl.
  { apply Forall_app. split; apply (section_clean w); try assumption; split; cbv; intuition discriminate. }
  rewrite newlines_id, lines_table.
  - rewrite map_app, ini_lines_app.
    destruct (section_steps w [] None [] s_certificates certs) as (x & o & E & J); [discriminate|discriminate|cbv; intuition discriminate|reflexivity|exact Cc|].
    rewrite E. cbn [bind app].
    destruct (section_steps w [(s_certificates, x)] (Some s_certificates) o s_public_keys keys) as (y & o' & E' & J');
      [discriminate|discriminate|cbv; intuition discriminate|reflexivity|exact Ck|].
    match goal with |- context [ini_lines w ?a ?b] => replace (ini_lines w a b)
      with (Ok (in_section s_public_keys o' ([(s_certificates, x)] ++ [(s_public_keys, y)])) : result ini_state) by (symmetry; exact E') end.
    cbn [bind in_section is_error negb is_defaults is_sections app map fst snd]. now rewrite J, J'.
  - eapply Forall_impl; [|exact Cl]. now intros l [H _].
  - exact (clean_text _ Cl).
Qed.

(** ** Stores *)

Definition has_cert (e : str * key_tuple) : bool := match kt_cert (snd e) with Some _ => true | None => false end.
Definition cert_part (w : world) (ks : keystore) : section :=
  flat_map (fun e => match kt_cert (snd e) with Some c => [(id_to_ini (fst e), exportCertToPEM w c)] | None => [] end) ks.
Definition key_part (w : world) (ks : keystore) : section :=
  flat_map (fun e => match kt_cert (snd e) with Some _ => [] | None => [(id_to_ini (fst e), exportKeyToPEM w (kt_key (snd e)))] end) ks.

Lemma write_parts w ks : forall C K, NoDup (map (fun e => id_to_ini (fst e)) ks) ->
  (forall e, In e ks -> ~ In (id_to_ini (fst e)) (map fst C) /\ ~ In (id_to_ini (fst e)) (map fst K)) ->
  fold_left
    (fun sections e =>
       match kt_cert (snd e) with
       | Some c => ini_set sections s_certificates (id_to_ini (fst e)) (exportCertToPEM w c)
       | None => ini_set sections s_public_keys (id_to_ini (fst e)) (exportKeyToPEM w (kt_key (snd e)))
       end) ks [(s_certificates, C); (s_public_keys, K)]
  = [(s_certificates, C ++ cert_part w ks); (s_public_keys, K ++ key_part w ks)].
Proof.
  induction ks as [|[i [k [c|]]] ks IH]; intros C K N F; cbn [fold_left]; [now rewrite !app_nil_r|..].
  - cbn [snd kt_cert fst]. destruct (F _ (or_introl eq_refl)) as [Fc Fk]. cbn [fst] in Fc, Fk.
    change (ini_set [(s_certificates, C); (s_public_keys, K)] s_certificates (id_to_ini i) (exportCertToPEM w c))
      with [(s_certificates, dict_set C (id_to_ini i) (exportCertToPEM w c)); (s_public_keys, K)].
    rewrite set_fresh by exact Fc. cbn [map fst] in N. apply NoDup_cons_iff in N as [N1 N]. rewrite IH; [|exact N|].
    + cbn [cert_part key_part flat_map snd kt_cert fst app]. now rewrite <- app_assoc.
    + intros e I. destruct (F e (or_intror I)) as [A B]. split; [|exact B]. rewrite map_app, in_app_iff. cbn [map fst].
      intros [H|[H|[]]]; [contradiction|]. apply N1. rewrite H. apply in_map_iff. now exists e.
  - cbn [snd kt_cert fst kt_key]. destruct (F _ (or_introl eq_refl)) as [Fc Fk]. cbn [fst] in Fc, Fk.
    change (ini_set [(s_certificates, C); (s_public_keys, K)] s_public_keys (id_to_ini i) (exportKeyToPEM w k))
      with [(s_certificates, C); (s_public_keys, dict_set K (id_to_ini i) (exportKeyToPEM w k))].
    rewrite set_fresh by exact Fk. cbn [map fst] in N. apply NoDup_cons_iff in N as [N1 N]. rewrite IH; [|exact N|].
    + cbn [cert_part key_part flat_map snd kt_cert fst app kt_key]. now rewrite <- app_assoc.
    + intros e I. destruct (F e (or_intror I)) as [A B]. split; [exact A|]. rewrite map_app, in_app_iff. cbn [map fst].
      intros [H|[H|[]]]; [contradiction|]. apply N1. rewrite H. apply in_map_iff. now exists e.
Qed.

Lemma read_certs_part w ks : pem_ok w -> Forall (read_ok w) ks -> Forall (fun e => no_pairs (fst e)) ks -> forall acc,
  NoDup (map fst (acc ++ ks)) -> read_ini_certs w acc (cert_part w ks) = Ok (acc ++ filter has_cert ks).
Proof.
  intros P F Np. induction ks as [|[i [k [c|]]] ks IH]; intros acc N; [cbn; now rewrite app_nil_r|..];
    pose proof (Forall_inv F) as E; pose proof (Forall_inv_tail F) as F'; pose proof (Forall_inv Np) as Ei; pose proof (Forall_inv_tail Np) as Np';
    unfold read_ok in E; cbn [snd kt_cert kt_key fst] in E, Ei.
  - destruct E as (_ & -> & (t & L)). cbn [cert_part flat_map snd kt_cert fst app read_ini_certs filter has_cert].
    rewrite (reload_cert w c t P L). cbn [bind]. rewrite id_there_and_back by exact Ei. unfold putKey. rewrite set_fresh.
    + fold (cert_part w ks). rewrite IH; [now rewrite <- app_assoc|exact F'|exact Np'|now rewrite <- app_assoc].
    + rewrite map_app in N. cbn [map fst] in N. apply NoDup_remove_2 in N. intros H. apply N. apply in_or_app. now left.
  - cbn [cert_part flat_map snd kt_cert fst app filter has_cert]. fold (cert_part w ks). apply IH; [exact F'|exact Np'|].
    rewrite map_app in *. cbn [map fst] in N. now apply NoDup_remove_1 in N.
Qed.

Lemma read_keys_part w ks : pem_ok w -> Forall (read_ok w) ks -> Forall (fun e => no_pairs (fst e)) ks -> forall acc,
  NoDup (map fst (acc ++ filter (fun e => negb (has_cert e)) ks)) ->
  read_ini_keys w acc (key_part w ks) = Ok (acc ++ filter (fun e => negb (has_cert e)) ks).
Proof.
  intros P F Np. induction ks as [|[i [k [c|]]] ks IH]; intros acc N; [cbn; now rewrite app_nil_r|..];
    pose proof (Forall_inv F) as E; pose proof (Forall_inv_tail F) as F'; pose proof (Forall_inv Np) as Ei; pose proof (Forall_inv_tail Np) as Np';
    unfold read_ok in E; cbn [snd kt_cert kt_key fst] in E, Ei.
  - cbn [key_part flat_map snd kt_cert fst app filter has_cert negb] in *. fold (key_part w ks). now apply IH.
  - destruct E as (t & L). cbn [key_part flat_map snd kt_cert kt_key fst app read_ini_keys filter has_cert negb] in *.
    rewrite (reload_key w k t P L). cbn [bind]. rewrite id_there_and_back by exact Ei. unfold putKey. rewrite set_fresh.
    + fold (key_part w ks). rewrite IH; [now rewrite <- app_assoc|exact F'|exact Np'|now rewrite <- app_assoc].
    + rewrite map_app in N. cbn [map fst] in N. apply NoDup_remove_2 in N. intros H. apply N. apply in_or_app. now left.
Qed.

Lemma parted {A} (f : A -> bool) l : Permutation.Permutation (filter f l ++ filter (fun x => negb (f x)) l) l.
Proof.
  induction l as [|x l IH]; [constructor|]. cbn [filter]. destruct (f x); cbn [negb app].
  - now constructor.
  - apply Permutation.Permutation_sym, Permutation.Permutation_cons_app, Permutation.Permutation_sym. exact IH.
Qed.

Lemma get_perm {A} (a b : list (str * A)) i : Permutation.Permutation a b -> NoDup (map fst b) -> dict_get a i = dict_get b i.
Proof.
  intros P N. assert (NoDup (map fst a)) as Na.
  { eapply Permutation.Permutation_NoDup; [|exact N]. apply Permutation.Permutation_map. now apply Permutation.Permutation_sym. }
  assert (forall (d : list (str * A)) v, dict_get d i = Some v -> In (i, v) d) as Gi.
  { induction d as [|[k v] d IH]; intros v' H; [discriminate|]. cbn [dict_get] in H. destruct (str_eqb k i) eqn:E.
    - apply str_eqb_eq in E. apply Some_inj in H. subst. now left.
    - right. now apply IH. }
  destruct (dict_get a i) as [v|] eqn:G.
  - apply Gi in G. symmetry. apply in_get; [exact N|]. eapply Permutation.Permutation_in; eassumption.
  - destruct (dict_get b i) as [v|] eqn:G'; [|reflexivity]. apply Gi in G'. apply Permutation.Permutation_sym in P.
    pose proof (Permutation.Permutation_in _ P G') as I. apply (in_get _ _ _ Na) in I. congruence.
Qed.

(** Hexadecimal numbers are IDs that can be written. *)
Lemma hex_id w z : (0 <= z)%Z -> ini_id w (fmt_x z).
Proof.
  intros P. assert (fmt_x z = digits 16 (Z.abs_N z)) as -> by (unfold fmt_x, fmt_base; now replace (z <? 0)%Z with false by lia).
  pose proof (digits_numeral 16 (Z.abs_N z) ltac:(lia)) as D. pose proof (numeral_nonempty _ _ _ D) as Ne.
  assert (Forall (fun c => 48 <= c <= 57 \/ 97 <= c <= 102 \/ 65 <= c <= 70) (digits 16 (Z.abs_N z))) as F.
  { eapply Forall_impl; [|exact (numeral_digits _ _ _ D)]. intros c (v & [H _]). lia. }
  rewrite Forall_forall in F.
  assert (forall c, hd_error (digits 16 (Z.abs_N z)) = Some c -> In c (digits 16 (Z.abs_N z))) as Hd.
  { intros c H. destruct (digits 16 (Z.abs_N z)); [discriminate|]. apply Some_inj in H. now left. }
  assert (forall c, 48 <= c <= 57 \/ 97 <= c <= 102 \/ 65 <= c <= 70 -> char_isspace w c = false) as Sp.
  { intros c H. unfold char_isspace. replace (c <? 128) with true by lia. unfold ascii_space. lia. }
  split; [exact Ne|]. split.
  { intros c [H|H]; apply Sp, F; [now apply Hd|]. apply in_rev. destruct (rev _); [discriminate|]. apply Some_inj in H. now left. }
  assert (forall c, c < 48 \/ 57 < c < 65 \/ 102 < c -> ~ In c (digits 16 (Z.abs_N z))) as No by (intros c H I; apply F in I; lia).
  split; [apply No; cbv; auto|]. split; [apply No; cbv; auto|]. split; [apply No; unfold c_eq; lia|].
  split. { intros p q E. exfalso. apply (No c_colon); [unfold c_colon; lia|]. rewrite E, in_app_iff. right. now left. }
  split; [|split; [|split]]; try (intros (p & q & E); apply (No c_semi); [unfold c_semi; lia|]; rewrite E, in_app_iff; right; right; now left).
  intros c H. apply Hd, F in H. unfold c_hash, c_semi. cbn. lia.
Qed.

Lemma pem_value w s : pem_data s -> s <> [] -> clean_value w s.
Proof.
  intros D N. split; [exact N|]. unfold pem_data in D. rewrite Forall_forall in D.
  assert (forall c, pem_char c -> char_isspace w c = false) as Sp.
  { intros c H. unfold pem_char in H. unfold char_isspace. replace (c <? 128) with true by lia. unfold ascii_space. lia. }
  split; [split|].
  - intros c t ->. apply Sp, D. now left.
  - intros c t ->. apply Sp, D. apply in_or_app. right. now left.
  - split; intros I; apply D in I; unfold pem_char, c_nl in I; lia.
Qed.

Lemma codec_value label load dump c t : unbroken label -> pem_codec label load dump -> load t = Some c ->
  pem_data (strip_pem (dump c)) /\ strip_pem (dump c) <> [].
Proof.
  intros U K L. destruct (K t c L) as (ls & E & F & N & R).
  assert (strip_pem (dump c) = List.concat ls) as ->.
  { rewrite E, strip_pem_text; [reflexivity|exact U| |now right]. eapply Forall_impl; [|exact F]. apply pem_char_unbroken. }
  split; [|exact N]. clear -F. induction F; [constructor|]. cbn [List.concat]. apply Forall_app. now split.
Qed.

Lemma part_keys w ks : map fst (cert_part w ks) = map (fun e => id_to_ini (fst e)) (filter has_cert ks)
  /\ map fst (key_part w ks) = map (fun e => id_to_ini (fst e)) (filter (fun e => negb (has_cert e)) ks).
Proof.
  induction ks as [|[i [k [c|]]] ks [IH1 IH2]]; [split; reflexivity|..]; unfold cert_part, key_part in *;
    cbn [flat_map snd kt_cert fst app map filter has_cert negb]; split; congruence.
Qed.

Lemma nodup_filter {A B} (g : A -> B) (f : A -> bool) l : NoDup (map g l) -> NoDup (map g (filter f l)).
Proof.
  induction l as [|x l IH]; [constructor|]. cbn [map filter]. intros N. apply NoDup_cons_iff in N as [N1 N].
  destruct (f x); [|now apply IH]. cbn [map]. constructor; [|now apply IH]. intros H. apply N1. apply in_map_iff in H as (y & E & I).
  apply filter_In in I as [I _]. apply in_map_iff. now exists y.
Qed.

Lemma parts_clean w ks : pem_ok w -> Forall (read_ok w) ks -> Forall (fun e => ini_id w (fst e)) ks ->
  NoDup (map (fun e => id_to_ini (fst e)) ks) -> clean_section w (cert_part w ks) /\ clean_section w (key_part w ks).
Proof.
  intros [Pc Pk] F Fi N. destruct (part_keys w ks) as [K1 K2]. unfold clean_section. rewrite K1, K2.
  split; (split; [|now apply nodup_filter]); clear K1 K2 N; (induction ks as [|[i [k [c|]]] ks IH]; [constructor|..]);
    pose proof (Forall_inv F) as E; pose proof (Forall_inv_tail F) as F'; pose proof (Forall_inv Fi) as Ei; pose proof (Forall_inv_tail Fi) as Fi';
    unfold read_ok in E; cbn [snd kt_cert kt_key fst] in E, Ei; unfold cert_part, key_part in *; cbn [flat_map snd kt_cert kt_key fst app];
    try (now apply IH).
  - constructor; [|now apply IH]. cbn [fst snd]. split; [now apply clean_id|]. destruct E as (_ & _ & (t & L)).
    apply pem_value; now apply (codec_value _ _ _ _ _ cert_label_unbroken Pc L).
  - constructor; [|now apply IH]. cbn [fst snd]. split; [now apply clean_id|]. destruct E as (t & L).
    apply pem_value; now apply (codec_value _ _ _ _ _ key_label_unbroken Pk L).
Qed.

Theorem legacy_ini w file ks key file0 : pem_ok w -> opens w file ks key -> signless ks ->
  (forall i k, found_at ks i = (Some k, None) -> ini_id w i) ->
  exists text file' ks', key_store_py w K_toIni file = Ok (None, text)
    /\ key_store_py w (K_fromIni text) file0 = Ok (Some file', []) /\ opens w file' ks' None
    /\ forall i, found_at ks' i = found_at ks i.
Proof.
  intros P O S H. destruct (opens_ok _ _ _ _ O) as (F & N & B). destruct O as [Or Okey].
  pose proof (kept_ok w ks F N S) as Fe.
  assert (Forall (fun e => ini_id w (fst e)) ks) as Fi.
  { rewrite Forall_forall in *. intros [i kt] I. cbn [fst]. specialize (Fe _ I). unfold entry_ok in Fe. cbn [fst snd] in Fe.
    destruct (kt_cert kt) as [c|] eqn:C.
    - destruct Fe as ((z & Pz & ->) & _). now apply hex_id.
    - apply (H i (kt_key kt)). rewrite found_get, (in_get _ _ _ N I). now rewrite C. }
  assert (Forall (fun e => no_pairs (fst e)) ks) as Np.
  { eapply Forall_impl; [|exact Fi]. intros e (_ & _ & _ & _ & _ & _ & A & A' & A'' & _). now split. }
  assert (NoDup (map (fun e => id_to_ini (fst e)) ks)) as Nt.
  { clear -N Np. induction ks as [|e ks IH]; [constructor|]. cbn [map] in *. apply NoDup_cons_iff in N as [N1 N].
    pose proof (Forall_inv Np) as E. pose proof (Forall_inv_tail Np) as Np'. constructor; [|now apply IH].
    intros I. apply in_map_iff in I as (e' & X & I). apply N1. apply in_map_iff. exists e'. split; [|exact I].
    rewrite Forall_forall in Np'. specialize (Np' _ I). rewrite <- (id_there_and_back (fst e)), <- (id_there_and_back (fst e')) by assumption. now rewrite X. }
  destruct (parts_clean w ks P F Fi Nt) as [Cc Ck].
  assert (writeStore w ks = Ini [] [(s_certificates, cert_part w ks); (s_public_keys, key_part w ks)]) as Wr.
  { unfold writeStore. now rewrite write_parts. }
  set (ks' := filter has_cert ks ++ filter (fun e => negb (has_cert e)) ks).
  pose proof (parted has_cert ks) as Pm. fold ks' in Pm.
  assert (NoDup (map fst ks')) as N'.
  { eapply Permutation.Permutation_NoDup; [|exact N]. apply Permutation.Permutation_map. now apply Permutation.Permutation_sym. }
  assert (readStore w (Ini [] [(s_certificates, cert_part w ks); (s_public_keys, key_part w ks)]) = Ok ks') as Rd.
  { unfold readStore, ini_items. cbn [ini_sections ini_defaults dict_get]. change (str_eqb s_certificates s_certificates) with true.
    change (str_eqb s_certificates s_public_keys) with false. change (str_eqb s_public_keys s_public_keys) with true. cbn iota.
    rewrite (fold_set_fresh _ []) by exact (proj2 Cc). rewrite (fold_set_fresh _ []) by exact (proj2 Ck). cbn [app].
    rewrite read_certs_part; [|exact P|exact F|exact Np|exact N]. cbn [bind app]. now rewrite read_keys_part. }
  assert (forall i, found_at ks' i = found_at ks i) as Same. { intros i. rewrite !found_get. now rewrite (get_perm _ _ i Pm N). }
  exists (ini_text (writeStore w ks)), (written_store w ks' None), ks'. split; [|split; [|split]].
  - unfold key_store_py. rewrite Or, Okey. reflexivity.
  - unfold key_store_py. rewrite Wr. rewrite (ini_there_and_back w _ _ Cc Ck). cbn [bind]. rewrite Rd. reflexivity.
  - apply written_opens; [exact P| |exact N'| |discriminate].
    + apply (Permutation.Permutation_Forall (Permutation.Permutation_sym Pm)). exact F.
    + intros i c G. apply cert_found in G as (k & G). rewrite Same in G. apply (S i c). apply cert_found. eauto.
  - exact Same.
Qed.
