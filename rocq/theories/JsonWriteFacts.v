(** Writing JSON texts: what is written can be read again. *)
From Coq Require Import Floats.SpecFloat Lia ZifyClasses ZifyN ZifyNat ZifyBool.
From Verif Require Import PyBase World Codec PyFloat Json SpecKeys ListFacts CodecFacts IntFacts JsonText SpecJsonText JsonTextFacts.
Open Scope N_scope.
Local Ltac Zify.zify_post_hook ::= Z.div_mod_to_equations.

Lemma hex_escape_text u : u < 0x10000 -> exists h, hex_escape u = lit "\u" ++ h /\ hex_text h u.
Proof.
  intros L. exists (map hex_char [u / 4096; (u / 256) mod 16; (u / 16) mod 16; u mod 16]). split; [reflexivity|].
  apply hex_text_iff. eexists _, _, _, _. split; [reflexivity|]. unfold hex4.
  assert (H : forall d, d < 16 -> hex_digit (hex_char d) = Some d).
  { intros d D. apply hex_digit_spec. apply hex_char_digit; lia. }
  rewrite !H by lia. f_equal. lia.
Qed.

Lemma hex_text_len h u : hex_text h u -> List.length h = 4%nat.
Proof. now intros [L _]. Qed.
Lemma hex_text_fun h u v : hex_text h u -> hex_text h v -> u = v.
Proof.
  rewrite !hex_text_iff. intros (a & b & c & d & -> & H) (a' & b' & c' & d' & E & H'). injection E as <- <- <- <-.
  rewrite H in H'. now apply Some_inj in H'.
Qed.

Lemma app_len_inj {A} (a b c d : list A) : a ++ b = c ++ d -> List.length a = List.length c -> a = c /\ b = d.
Proof.
  revert c. induction a as [|x a IH]; intros [|y c] E L; try discriminate L; [now split|].
  cbn [app] in E. injection E as <- E. destruct (IH c E) as [-> ->]; [now injection L|]. now split.
Qed.

(** The escapes of a character, by cases *)
Lemma escape_cases c : c < 0x110000 ->
  (exists e, escape c = [92; e] /\ In (e, c) escapes /\ e <> 117)
  \/ (escape c = [c] /\ 32 <= c <= 126 /\ c <> 34 /\ c <> 92)
  \/ (c < 0x10000 /\ escape c = hex_escape c)
  \/ (0x10000 <= c /\ escape c = hex_escape (0xD800 + (c - 0x10000) / 1024) ++ hex_escape (0xDC00 + (c - 0x10000) mod 1024)).
Proof.
  intros L. unfold escape.
  destruct (c =? 34) eqn:E1; [apply N.eqb_eq in E1; subst; left; exists 34; cbn; auto 12 with zarith|].
  destruct (c =? 92) eqn:E2; [apply N.eqb_eq in E2; subst; left; exists 92; cbn; auto 12 with zarith|].
  destruct (c =? 10) eqn:E3; [apply N.eqb_eq in E3; subst; left; exists 110; cbn; auto 12 with zarith|].
  destruct (c =? 13) eqn:E4; [apply N.eqb_eq in E4; subst; left; exists 114; cbn; auto 12 with zarith|].
  destruct (c =? 9) eqn:E5; [apply N.eqb_eq in E5; subst; left; exists 116; cbn; auto 12 with zarith|].
  destruct (c =? 12) eqn:E6; [apply N.eqb_eq in E6; subst; left; exists 102; cbn; auto 12 with zarith|].
  destruct (c =? 8) eqn:E7; [apply N.eqb_eq in E7; subst; left; exists 98; cbn; auto 12 with zarith|].
  destruct ((32 <=? c) && (c <=? 126)) eqn:E8; [right; left; split; [reflexivity|lia]|].
  destruct (c <? 0x10000) eqn:E9; [right; right; left; split; [lia|reflexivity]|].
  right. right. right. split; [lia|reflexivity].
Qed.

Lemma no_pairs_tail c s : no_pairs (c :: s) -> c < 0x110000 /\ no_pairs s.
Proof.
  intros [F P]. split; [exact (Forall_inv F)|]. split; [exact (Forall_inv_tail F)|].
  intros a u v b ->. exact (P (c :: a) u v b eq_refl).
Qed.

Lemma second_half_inv s : Forall (fun c => c < 0x110000) s -> second_half (flat_map escape s) -> exists v r, s = v :: r /\ is_low v.
Proof.
  intros F (h & u & r & E & H & U). destruct s as [|v s]; [discriminate E|]. cbn [flat_map] in E.
  pose proof (hex_text_len _ _ H) as Lh.
  destruct (escape_cases v (Forall_inv F)) as [(e & X & _ & Ne)|[(X & A & _ & B)|[(A & X)|(A & X)]]]; rewrite X in E.
  - cbn in E. injection E as E _. contradiction.
  - cbn in E. injection E as E _. contradiction.
  - destruct (hex_escape_text v A) as (g & Eg & G). rewrite Eg, <- app_assoc in E. apply app_inv_head in E.
    apply app_len_inj in E; [|now rewrite (hex_text_len _ _ G), Lh]. destruct E as [<- _]. rewrite (hex_text_fun _ _ _ G H).
    exists u, s. now split.
  - pose proof (Forall_inv F) as Lv. cbn beta in Lv.
    assert (Q : 0xD800 + (v - 0x10000) / 1024 < 0xDC00) by lia.
    destruct (hex_escape_text (0xD800 + (v - 0x10000) / 1024)) as (g & Eg & G); [lia|].
    rewrite Eg, <- !app_assoc in E. apply app_inv_head in E.
    apply app_len_inj in E; [|now rewrite (hex_text_len _ _ G), Lh]. destruct E as [<- _]. pose proof (hex_text_fun _ _ _ G H) as <-.
    unfold is_low in U. lia.
Qed.

Lemma escape_chars s : no_pairs s -> chars s (flat_map escape s).
Proof.
  induction s as [|c s IH]; intros P; [constructor|]. destruct (no_pairs_tail _ _ P) as [L P']. specialize (IH P').
  cbn [flat_map]. destruct (escape_cases c L) as [(e & X & I & _)|[(X & A & B & C)|[(A & X)|(A & X)]]]; rewrite X.
  - now apply chars_escape.
  - apply chars_plain; [lia|exact B|exact C|exact IH].
  - destruct (hex_escape_text c A) as (h & -> & H). rewrite <- app_assoc. apply chars_code; [exact H| |exact IH].
    intros [U S]. destruct P as [F P]. apply second_half_inv in S; [|exact (Forall_inv_tail F)].
    destruct S as (v & r & -> & V). exact (P [] c v r eq_refl (conj U V)).
  - destruct (hex_escape_text (0xD800 + (c - 0x10000) / 1024)) as (h & -> & H); [lia|].
    destruct (hex_escape_text (0xDC00 + (c - 0x10000) mod 1024)) as (g & -> & G); [lia|].
    rewrite <- !app_assoc.
    pose proof (chars_pair h _ g _ s (flat_map escape s) H ltac:(unfold is_high; lia) G ltac:(unfold is_low; lia) IH) as Q.
    replace (0x10000 + (0xD800 + (c - 0x10000) / 1024 - 0xD800) * 0x400 + (0xDC00 + (c - 0x10000) mod 1024 - 0xDC00)) with c in Q by lia.
    exact Q.
Qed.

Lemma quote_quoted s : no_pairs s -> quoted s (quote s).
Proof. intros P. exists (flat_map escape s). split; [reflexivity|now apply escape_chars]. Qed.

(** ** Values *)

Section JsonInd.
Variable P : json -> Prop.
Hypothesis (Hnull : P JNull) (Hbool : forall b, P (JBool b)) (Hint : forall z, P (JInt z)) (Hfloat : forall f, P (JFloat f))
  (Hstr : forall s, P (JStr s)) (Hlist : forall l, Forall P l -> P (JList l)) (Hdict : forall d, Forall (fun kv => P (snd kv)) d -> P (JDict d)).
Fixpoint json_ind2 (j : json) : P j :=
  match j with
  | JNull => Hnull | JBool b => Hbool b | JInt z => Hint z | JFloat f => Hfloat f | JStr s => Hstr s
  | JList l => Hlist l ((fix go l : Forall P l := match l with [] => Forall_nil _ | x :: r => Forall_cons _ (json_ind2 x) (go r) end) l)
  | JDict d => Hdict d ((fix go d : Forall (fun kv => P (snd kv)) d :=
      match d with [] => Forall_nil _ | x :: r => Forall_cons _ (json_ind2 (snd x)) (go r) end) d)
  end.
End JsonInd.

Lemma blank_line ind lvl : blank (new_line ind lvl).
Proof.
  unfold new_line. destruct ind; [|constructor]. constructor; [auto|]. apply Forall_forall. intros c H.
  apply repeat_spec in H. subst. auto.
Qed.
Lemma separator_spec ind lvl : exists b, separator ind lvl = [44] ++ b /\ blank b.
Proof.
  unfold separator. destruct ind.
  - exists (new_line true lvl). split; [reflexivity|apply blank_line].
  - exists [32]. split; [reflexivity|]. constructor; [auto|constructor].
Qed.

Lemma digits_integer n : integer_digits (digits 10 n).
Proof.
  pose proof (digits_numeral 10 n ltac:(lia)) as H. pose proof H as Q. apply numeral_dec in Q.
  destruct Q as (E & F & En). unfold integer_digits. destruct (digits 10 n) as [|c r] eqn:Ed; [contradiction|].
  destruct (N.eq_dec c 48) as [->|Nc]; [|right; now exists c, r]. left.
  destruct r as [|d r]; [reflexivity|exfalso].
  assert (Lead : forall fuel m acc, m <> 0 -> (N.to_nat (N.size m) <= fuel)%nat -> exists c0 r0, digits_fuel fuel 10 m acc = c0 :: r0 /\ c0 <> 48).
  { clear. induction fuel as [|fuel IH]; intros m acc Hm Hf.
    - destruct m; [contradiction|]. cbn [N.size] in Hf. lia.
    - cbn [digits_fuel]. destruct (m / 10 =? 0) eqn:Z.
      + exists (hex_char (m mod 10)), acc. split; [reflexivity|]. unfold hex_char. destruct (m mod 10 <? 10) eqn:X; lia.
      + apply IH; [lia|]. assert (N.size (m / 10) < N.size m); [|lia].
        rewrite !N.size_log2 by lia. assert (m / 10 <= m / 2) by lia.
        assert (N.log2 (m / 10) <= N.log2 (m / 2)) by now apply N.log2_le_mono.
        assert (N.log2 (m / 2) < N.log2 m); [|lia].
        rewrite <- N.div2_div. destruct (N.lt_trichotomy (N.log2 (N.div2 m)) (N.log2 m)) as [X|[X|X]]; [exact X|exfalso|exfalso].
        * assert (1 < m) by lia. assert (m / 2 <> 0) by lia. rewrite N.div2_div in X.
          pose proof (N.log2_spec (m / 2) ltac:(lia)). pose proof (N.log2_spec m ltac:(lia)). rewrite X in *. rewrite N.pow_succ_r' in *. lia.
        * assert (N.log2 (N.div2 m) <= N.log2 m); [apply N.log2_le_mono; rewrite N.div2_div; lia|lia]. }
  destruct (N.eq_dec n 0) as [->|Nn]; [cbn in Ed; discriminate Ed|].
  unfold digits in Ed. destruct (Lead (S (N.to_nat (N.size n))) n [] Nn) as (c2 & r2 & E2 & C2); [lia|].
  rewrite Ed in E2. injection E2 as <- _. contradiction.
Qed.

Lemma fmt_d_text z : text (JInt z) (fmt_d z).
Proof.
  pose proof digits_integer as D.
  unfold fmt_d, fmt_base. destruct z as [|p|p].
  - exact (text_int false _ 0 (D 0) (digits_numeral 10 0 ltac:(lia))).
  - exact (text_int false _ (Npos p) (D _) (digits_numeral 10 _ ltac:(lia))).
  - exact (text_int true _ (Npos p) (D _) (digits_numeral 10 _ ltac:(lia))).
Qed.

Lemma float_text_spec fr x : (finite_float x -> float_number x (fr x)) -> text (JFloat x) (float_text fr x).
Proof.
  intros H. destruct x as [b|[|]| |b m e]; cbn [float_text]; try constructor; apply H; (split; [discriminate|intros ?; discriminate]).
Qed.

Lemma join_cons sep a b l : join sep (a :: b :: l) = a ++ sep ++ join sep (b :: l).
Proof. reflexivity. Qed.

(** Elements between blanks with separators in between *)
Lemma items_join {A} (g : A -> json) (f : A -> str) sb l a z : l <> [] -> blank a -> blank z -> blank sb ->
  Forall (fun x => text (g x) (f x)) l -> items (map g l) (a ++ join ([44] ++ sb) (map f l) ++ z).
Proof.
  intros NE BA BZ BS F. revert a BA NE. induction F as [|x l T F IH]; intros a BA NE; [contradiction|].
  destruct l as [|y l].
  - cbn [map join]. now apply items_one.
  - cbn [map]. rewrite join_cons. specialize (IH sb BS ltac:(discriminate)). cbn [map] in IH.
    replace (a ++ (f x ++ ([44] ++ sb) ++ join ([44] ++ sb) (f y :: map f l)) ++ z)
      with ((a ++ f x ++ []) ++ [44] ++ (sb ++ join ([44] ++ sb) (f y :: map f l) ++ z)) by (rewrite app_nil_r, <- !app_assoc; reflexivity).
    apply items_more; [exact BA|exact T|constructor|exact IH].
Qed.

Lemma members_join (f : str * json -> str) sb l a z : l <> [] -> blank a -> blank z -> blank sb ->
  Forall (fun kv => forall b c, blank b -> blank c -> member_text (fst kv) (snd kv) (b ++ f kv ++ c)) l ->
  members l (a ++ join ([44] ++ sb) (map f l) ++ z).
Proof.
  intros NE BA BZ BS F. revert a BA NE. induction F as [|[k v] l T F IH]; intros a BA NE; [contradiction|].
  cbn [fst snd] in T. destruct l as [|y l].
  - cbn [map join]. apply members_one. now apply T.
  - cbn [map]. rewrite join_cons. specialize (IH sb BS ltac:(discriminate)). cbn [map] in IH.
    replace (a ++ (f (k, v) ++ ([44] ++ sb) ++ join ([44] ++ sb) (f y :: map f l)) ++ z)
      with ((a ++ f (k, v) ++ []) ++ [44] ++ (sb ++ join ([44] ++ sb) (f y :: map f l) ++ z)) by (rewrite app_nil_r, <- !app_assoc; reflexivity).
    apply members_more; [|exact IH]. apply T; [exact BA|constructor].
Qed.

Theorem dump_text fr ind v : writable fr v -> forall lvl, text v (dump fr ind lvl v).
Proof.
  induction v as [|b|z|x|s|l IH|d IH] using json_ind2; intros W lvl.
  - constructor.
  - destruct b; constructor.
  - apply fmt_d_text.
  - apply float_text_spec. now inversion W.
  - apply text_string, quote_quoted. now inversion W.
  - assert (F : Forall (writable fr) l) by now inversion W. destruct l as [|x l].
    + change (dump fr ind lvl (JList [])) with ([91] ++ [] ++ [93]). apply text_list_nil. constructor.
    + destruct (separator_spec ind (S lvl)) as (sb & E & B).
      change (dump fr ind lvl (JList (x :: l))) with (91 :: new_line ind (S lvl) ++ join (separator ind (S lvl)) (map (dump fr ind (S lvl)) (x :: l)) ++ new_line ind lvl ++ [93]).
      rewrite E. replace (91 :: new_line ind (S lvl) ++ join ([44] ++ sb) (map (dump fr ind (S lvl)) (x :: l)) ++ new_line ind lvl ++ [93])
        with ([91] ++ (new_line ind (S lvl) ++ join ([44] ++ sb) (map (dump fr ind (S lvl)) (x :: l)) ++ new_line ind lvl) ++ [93])
        by (cbn [app]; now rewrite <- !app_assoc).
      apply text_list. rewrite <- (map_id (x :: l)) at 1.
      apply (items_join (fun x => x)); [discriminate|apply blank_line|apply blank_line|exact B|].
      rewrite Forall_forall in *. intros y Hy. apply IH; [exact Hy|now apply F].
  - assert (F : Forall (fun kv => no_pairs (fst kv) /\ writable fr (snd kv)) d) by now inversion W. destruct d as [|x d].
    + change (dump fr ind lvl (JDict [])) with ([123] ++ [] ++ [125]). apply text_dict_nil. constructor.
    + destruct (separator_spec ind (S lvl)) as (sb & E & B).
      set (f := fun kv : str * json => quote (fst kv) ++ 58 :: 32 :: dump fr ind (S lvl) (snd kv)).
      change (dump fr ind lvl (JDict (x :: d))) with (123 :: new_line ind (S lvl) ++ join (separator ind (S lvl)) (map f (x :: d)) ++ new_line ind lvl ++ [125]).
      rewrite E. replace (123 :: new_line ind (S lvl) ++ join ([44] ++ sb) (map f (x :: d)) ++ new_line ind lvl ++ [125])
        with ([123] ++ (new_line ind (S lvl) ++ join ([44] ++ sb) (map f (x :: d)) ++ new_line ind lvl) ++ [125])
        by (cbn [app]; now rewrite <- !app_assoc).
      apply text_dict. apply members_join; [discriminate|apply blank_line|apply blank_line|exact B|].
      rewrite Forall_forall in *. intros [k v] Hy b c Bb Bc. cbn [fst snd]. destruct (F _ Hy) as [Fk Fv]. cbn [fst snd] in Fk, Fv.
      replace (b ++ f (k, v) ++ c) with (b ++ quote k ++ [] ++ [58] ++ [32] ++ dump fr ind (S lvl) v ++ c)
        by (unfold f; cbn [fst snd app]; now rewrite <- !app_assoc).
      apply member_of; [exact Bb|now apply quote_quoted|constructor|constructor; [auto|constructor]|exact (IH _ Hy Fv (S lvl))|exact Bc].
Qed.

Theorem loads_dumps fr ind v : writable fr v -> loads (dumps fr ind v) = Some v.
Proof.
  intros W. apply loads_iff. exists [], (dumps fr ind v), []. split; [now rewrite app_nil_r|].
  split; [constructor|]. split; [now apply dump_text|constructor].
Qed.

(** ** Reading files *)

Lemma text_first v t : text v t -> exists c r, t = c :: r /\ c < 128.
Proof.
  intros H. inversion H as [| | | | | |neg ds n I ND|x t' FN|s t' Q|b B|l t' I|b B|l t' I]; subst;
    try (eexists _, _; split; [reflexivity|]; reflexivity).
  - destruct (number_start neg _ _ ND) as (c & d & -> & C). apply is_09_iff in C.
    destruct neg; [exists 45, (c :: d)|exists c, d]; (split; [reflexivity|lia]).
  - destruct FN as (neg & ds & fs & ft & e & et & m & _ & (n & ND) & _ & _ & _ & -> & _).
    destruct (number_start neg _ _ ND) as (c & d & -> & C). apply is_09_iff in C.
    destruct neg; [exists 45, ((c :: d) ++ ft ++ et)|exists c, (d ++ ft ++ et)]; (split; [reflexivity|lia]).
  - destruct Q as (b & -> & _). exists 34, (b ++ [34]). now split.
Qed.

Lemma document_first v t : document v t -> exists c r, t = c :: r /\ c < 128.
Proof.
  intros (a & b & c & -> & A & T & C). destruct A as [|x a E A].
  - destruct (text_first _ _ T) as (y & r & -> & L). now exists y, (r ++ c).
  - exists x, (a ++ b ++ c). split; [reflexivity|lia].
Qed.

Lemma skipBOM_document v t : document v t -> skipBOM t = t.
Proof.
  intros D. destruct (document_first _ _ D) as (c & r & -> & L). cbn [skipBOM]. destruct (c =? 0xFEFF) eqn:E; [lia|reflexivity].
Qed.

Theorem read_stream_iff s j : readJsonStream s = Some j <-> exists v t, document v t /\ (s = t \/ s = 0xFEFF :: t) /\ j = load v.
Proof.
  unfold readJsonStream. split.
  - destruct (loads (skipBOM s)) as [v|] eqn:L; [|discriminate]. intros H. apply Some_inj in H. subst j.
    apply loads_iff in L. exists v, (skipBOM s). split; [exact L|]. split; [|reflexivity].
    destruct s as [|c r]; [now left|]. cbn [skipBOM] in *. destruct (c =? 0xFEFF) eqn:E; [|now left].
    apply N.eqb_eq in E. subst c. now right.
  - intros (v & t & D & E & ->). assert (X : skipBOM s = t) by (destruct E as [->| ->]; [now apply (skipBOM_document v)|reflexivity]).
    rewrite X. apply loads_iff in D. now rewrite D.
Qed.

Theorem read_dumps fr ind v : writable fr v ->
  readJsonStream (dumps fr ind v) = Some (load v) /\ readJsonStream (0xFEFF :: dumps fr ind v) = Some (load v).
Proof.
  intros W. assert (D : document v (dumps fr ind v)) by now apply loads_iff, loads_dumps.
  split; apply read_stream_iff; exists v, (dumps fr ind v); (split; [exact D|]); (split; [auto|reflexivity]).
Qed.

(** ** ASCII *)

Definition ascii_char (c : N) : Prop := c = 10 \/ 32 <= c <= 126.

Local Ltac asc := match goal with |- Forall _ ?l => let l' := eval vm_compute in l in change l with l' end; repeat (apply Forall_cons || apply Forall_nil); try (right; lia).

Lemma numeral_chars base s n : numeral base s n -> Forall ascii_char s.
Proof.
  intros H. apply numeral_digits in H. eapply Forall_impl; [|exact H]. unfold ascii_char, numeral_digit. intros c (v & D & _). lia.
Qed.

Lemma float_chars x t : float_number x t -> Forall ascii_char t.
Proof.
  intros (neg & ds & fs & ft & e & et & m & _ & (n & ND) & FT & ET & _ & -> & _).
  assert (A : forall c, 32 <= c <= 126 -> ascii_char c) by (unfold ascii_char; auto).
  apply Forall_app. split; [destruct neg; asc|]. apply Forall_app. split; [now apply (numeral_chars 10 _ n)|].
  apply Forall_app. split.
  - destruct FT as [[_ ->]|[[k F] ->]]; [constructor|]. constructor; [apply A; lia|now apply (numeral_chars 10 _ k)].
  - destruct ET as [[_ ->]|(c & p & ds' & n' & C & -> & F & P)]; [constructor|].
    constructor; [apply A; lia|]. apply Forall_app. split; [|now apply (numeral_chars 10 _ n')].
    destruct P as [(-> & _)|[(-> & _)|(-> & _)]]; asc.
Qed.

Lemma hex_chars u : u < 0x10000 -> Forall ascii_char (hex_escape u).
Proof.
  intros L. destruct (hex_escape_text u L) as (h & -> & _ & H). apply Forall_app. split; [asc|].
  now apply (numeral_chars 16 _ u).
Qed.

Lemma escape_ascii c : c < 0x110000 -> Forall ascii_char (escape c).
Proof.
  intros L. destruct (escape_cases c L) as [(e & -> & I & _)|[(-> & A & _)|[(A & ->)|(A & ->)]]].
  - cbn [In escapes] in I. apply Forall_cons; [right; lia|]. apply Forall_cons; [|apply Forall_nil].
    repeat (destruct I as [I|I]; [injection I as <- <-; right; lia|]). contradiction.
  - asc.
  - now apply hex_chars.
  - apply Forall_app. split; apply hex_chars; lia.
Qed.
Lemma quote_ascii s : Forall (fun c => c < 0x110000) s -> Forall ascii_char (quote s).
Proof.
  intros F. unfold quote. constructor; [right; lia|]. apply Forall_app. split; [|asc].
  induction F as [|c s L F IH]; [constructor|]. cbn [flat_map]. apply Forall_app. split; [now apply escape_ascii|exact IH].
Qed.

Lemma line_ascii ind lvl : Forall ascii_char (new_line ind lvl).
Proof.
  unfold new_line. destruct ind; [|constructor]. constructor; [now left|]. apply Forall_forall. intros c H. apply repeat_spec in H. subst. right. lia.
Qed.
Lemma separator_ascii ind lvl : Forall ascii_char (separator ind lvl).
Proof.
  unfold separator. constructor; [right; lia|]. destruct ind; [apply line_ascii|]. asc.
Qed.
Lemma join_ascii sep l : Forall ascii_char sep -> Forall (Forall ascii_char) l -> Forall ascii_char (join sep l).
Proof.
  intros S F. induction F as [|x l X F IH]; [constructor|]. destruct l as [|y l]; [exact X|]. rewrite join_cons.
  apply Forall_app. split; [exact X|]. apply Forall_app. now split.
Qed.

Theorem dump_ascii fr ind v : writable fr v -> forall lvl, Forall ascii_char (dump fr ind lvl v).
Proof.
  induction v as [|b|z|x|s|l IH|d IH] using json_ind2; intros W lvl.
  - asc.
  - destruct b; asc.
  - cbn [dump]. unfold fmt_d, fmt_base.
    assert (forall n, Forall ascii_char (digits 10 n)) by (intros n; apply (numeral_chars 10 _ n), digits_numeral; lia).
    destruct (z <? 0)%Z; [constructor; [right; unfold c_dash; lia|]|]; auto.
  - assert (F : finite_float x -> float_number x (fr x)) by now inversion W.
    destruct x as [b|b| |b m e]; cbn [dump float_text].
    + apply (float_chars (S754_zero b)), F. split; [|intros ?]; discriminate.
    + destruct b; asc.
    + asc.
    + apply (float_chars (S754_finite b m e)), F. split; [|intros ?]; discriminate.
  - assert (P : no_pairs s) by now inversion W. apply quote_ascii. apply P.
  - assert (F : Forall (writable fr) l) by now inversion W. destruct l as [|x l]; [asc|].
    change (dump fr ind lvl (JList (x :: l))) with (91 :: new_line ind (S lvl) ++ join (separator ind (S lvl)) (map (dump fr ind (S lvl)) (x :: l)) ++ new_line ind lvl ++ [93]).
    constructor; [right; lia|]. apply Forall_app. split; [apply line_ascii|]. apply Forall_app. split.
    + apply join_ascii; [apply separator_ascii|]. rewrite Forall_forall in *. intros y Hy. apply in_map_iff in Hy.
      destruct Hy as (z & <- & Hz). apply IH; [exact Hz|now apply F].
    + apply Forall_app. split; [apply line_ascii|]. asc.
  - assert (F : Forall (fun kv => no_pairs (fst kv) /\ writable fr (snd kv)) d) by now inversion W.
    destruct d as [|x d]; [asc|].
    set (f := fun kv : str * json => quote (fst kv) ++ 58 :: 32 :: dump fr ind (S lvl) (snd kv)).
    change (dump fr ind lvl (JDict (x :: d))) with (123 :: new_line ind (S lvl) ++ join (separator ind (S lvl)) (map f (x :: d)) ++ new_line ind lvl ++ [125]).
    constructor; [right; lia|]. apply Forall_app. split; [apply line_ascii|]. apply Forall_app. split.
    + apply join_ascii; [apply separator_ascii|]. rewrite Forall_forall in *. intros y Hy. apply in_map_iff in Hy.
      destruct Hy as (z & <- & Hz). destruct (F _ Hz) as [P Fz]. unfold f. apply Forall_app. split; [apply quote_ascii, P|].
      constructor; [right; lia|]. constructor; [right; lia|]. now apply (IH _ Hz).
    + apply Forall_app. split; [apply line_ascii|]. asc.
Qed.
