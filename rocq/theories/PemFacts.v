(** PEM texts (C38). *)
From Coq Require Import Lia ZifyClasses ZifyN ZifyNat ZifyBool.
From Verif Require Import PyBase World Regex Codec Pem ListFacts CodecFacts SpecKeys.
Open Scope N_scope.

Definition unbroken (s : str) : Prop := Forall (fun c => is_line_end c = false) s.

Lemma splitlines_line l r : unbroken l -> splitlines (l ++ c_nl :: r) = l :: splitlines r.
Proof.
  intros U. induction l as [|c l IH].
  - cbn [app splitlines]. change (is_line_end c_nl) with true. cbn iota. destruct r; [reflexivity|].
    now change (c_nl =? 13) with false.
  - apply Forall_cons_iff in U as [Hc U]. cbn [app splitlines]. rewrite Hc, (IH U). reflexivity.
Qed.

Lemma splitlines_last l : unbroken l -> l <> [] -> splitlines l = [l].
Proof.
  induction l as [|c l IH]; intros U N; [contradiction|]. apply Forall_cons_iff in U as [Hc U].
  cbn [splitlines]. rewrite Hc. destruct l as [|d l]; [reflexivity|]. rewrite IH; [reflexivity|exact U|discriminate].
Qed.

Lemma splitlines_lines ls r : Forall unbroken ls -> splitlines (List.concat (map (fun l => l ++ [c_nl]) ls) ++ r) = ls ++ splitlines r.
Proof.
  induction 1 as [|l ls U _ IH]; [reflexivity|]. cbn [map List.concat]. rewrite <- !app_assoc. cbn [app].
  rewrite splitlines_line by exact U. cbn [app]. f_equal. exact IH.
Qed.

Lemma pem_char_unbroken s : pem_data s -> unbroken s.
Proof.
  intros H. eapply Forall_impl; [|exact H]. intros c Hc. unfold pem_char in Hc. unfold is_line_end. lia.
Qed.

Lemma unbroken_lit s : forallb (fun c => negb (is_line_end c)) s = true -> unbroken s.
Proof.
  intros H. apply Forall_forall. rewrite forallb_forall in H. intros c Hc. apply H in Hc. now apply negb_true_iff.
Qed.

Lemma unbroken_app a b : unbroken a -> unbroken b -> unbroken (a ++ b).
Proof. intros. now apply Forall_app. Qed.

Lemma splitlines_pem label ls tail : unbroken label -> Forall unbroken ls -> tail = [] \/ tail = [c_nl] ->
  splitlines (pem_text label ls tail) =
    (lit "-----BEGIN " ++ label ++ lit "-----") :: ls ++ [lit "-----END " ++ label ++ lit "-----"].
Proof.
  intros L U T. unfold pem_text.
  assert (unbroken (lit "-----BEGIN ")) as U1 by (now apply unbroken_lit).
  assert (unbroken (lit "-----END ")) as U2 by (now apply unbroken_lit).
  assert (unbroken (lit "-----")) as U3 by (now apply unbroken_lit).
  match goal with |- splitlines ?t = _ =>
    replace t with ((lit "-----BEGIN " ++ label ++ lit "-----") ++ c_nl :: List.concat (map (fun l => l ++ [c_nl]) ls)
      ++ (lit "-----END " ++ label ++ lit "-----") ++ tail) by (rewrite <- !app_assoc; reflexivity) end.
  rewrite splitlines_line by now repeat apply unbroken_app. f_equal. rewrite splitlines_lines by exact U. f_equal.
  destruct T as [-> | ->].
  - rewrite app_nil_r. apply splitlines_last; [now repeat apply unbroken_app|discriminate].
  - rewrite splitlines_line by now repeat apply unbroken_app. reflexivity.
Qed.

Lemma strip_pem_text label ls tail : unbroken label -> Forall unbroken ls -> tail = [] \/ tail = [c_nl] ->
  strip_pem (pem_text label ls tail) = List.concat ls.
Proof.
  intros L U T. unfold strip_pem. rewrite splitlines_pem by assumption. cbn [tl]. now rewrite removelast_last.
Qed.

(** ** Breaking lines *)

Lemma pieces_fuel_spec : forall fuel s, (List.length s <= fuel)%nat ->
  List.concat (pieces_fuel fuel s) = s
  /\ Forall (fun l => l <> [] /\ (List.length l <= 64)%nat) (pieces_fuel fuel s)
  /\ (forall l r, pieces_fuel fuel s = l ++ r -> r <> [] -> Forall (fun x => List.length x = 64%nat) l).
Proof.
  induction fuel as [|fuel IH]; intros s L.
  - destruct s; [|cbn in L; lia]. cbn [pieces_fuel]. split; [reflexivity|]. split; [constructor|].
    intros l r E N. destruct l, r; try discriminate; try contradiction; constructor.
  - destruct s as [|c s].
    { cbn [pieces_fuel]. split; [reflexivity|]. split; [constructor|].
      intros l r E N. destruct l, r; try discriminate; try contradiction; constructor. }
    cbn [pieces_fuel].
    assert (List.length (skipn 64 (c :: s)) <= fuel)%nat as L' by (rewrite skipn_length; cbn [List.length] in *; lia).
    destruct (IH _ L') as (C & F & A). split; [|split].
    + cbn [List.concat]. rewrite C. apply firstn_skipn.
    + constructor; [|exact F]. split; [discriminate|]. rewrite firstn_length. lia.
    + intros l r E N. destruct l as [|x l]; [constructor|]. pose proof (f_equal (hd []) E) as E1. pose proof (f_equal (@tl str) E) as E2.
      cbn [hd tl app] in E1, E2. rewrite <- E1. clear E E1. constructor; [|now apply (A l r)].
      rewrite firstn_length. destruct (le_lt_dec 64 (List.length (c :: s))) as [?|S1]; [lia|].
      exfalso. assert (skipn 64 (c :: s) = []) as Z by (apply length_zero_iff_nil; rewrite skipn_length; lia).
      rewrite Z in E2. destruct fuel, l, r; try discriminate; contradiction.
Qed.

Lemma pieces_spec s :
  List.concat (pieces s) = s
  /\ Forall (fun l => l <> [] /\ (List.length l <= 64)%nat) (pieces s)
  /\ (forall l r, pieces s = l ++ r -> r <> [] -> Forall (fun x => List.length x = 64%nat) l).
Proof. apply pieces_fuel_spec. lia. Qed.

Lemma join_lines ls r : ls <> [] -> join [c_nl] ls ++ c_nl :: r = List.concat (map (fun l => l ++ [c_nl]) ls) ++ r.
Proof.
  induction ls as [|l ls IH]; [contradiction|]. intros _. destruct ls as [|m ls].
  - cbn [join map List.concat]. rewrite app_nil_r, <- app_assoc. reflexivity.
  - change (join [c_nl] (l :: m :: ls)) with (l ++ [c_nl] ++ join [c_nl] (m :: ls)).
    change (map (fun l0 => l0 ++ [c_nl]) (l :: m :: ls)) with ((l ++ [c_nl]) :: map (fun l0 => l0 ++ [c_nl]) (m :: ls)).
    cbn [List.concat]. rewrite <- !app_assoc. cbn [app]. rewrite IH by discriminate. reflexivity.
Qed.

(** The lines of the formatted data; without data there is one empty line. *)
Definition data_lines (s : str) : list str := match pieces s with [] => [[]] | ls => ls end.

Lemma headers_text label s :
  lit "-----BEGIN " ++ label ++ lit "-----" ++ [c_nl] ++ join [c_nl] (pieces s) ++ c_nl :: lit "-----END " ++ label ++ lit "-----"
  = pem_text label (data_lines s) [].
Proof.
  unfold pem_text, data_lines. do 4 f_equal. destruct (pieces s) as [|l ls] eqn:E.
  - rewrite app_nil_r. reflexivity.
  - rewrite app_nil_r. apply join_lines. discriminate.
Qed.

Lemma addPEMCertHeaders_text s : addPEMCertHeaders s = pem_text cert_label (data_lines s) [].
Proof. rewrite <- headers_text. reflexivity. Qed.
Lemma addPEMPubKeyHeaders_text s : addPEMPubKeyHeaders s = pem_text key_label (data_lines s) [].
Proof. rewrite <- headers_text. reflexivity. Qed.

Lemma data_lines_spec s : s <> [] ->
  List.concat (data_lines s) = s
  /\ Forall (fun l => l <> [] /\ (List.length l <= 64)%nat) (data_lines s)
  /\ (forall l r, data_lines s = l ++ r -> r <> [] -> Forall (fun x => List.length x = 64%nat) l).
Proof.
  intros N. destruct (pieces_spec s) as (C & F & A). unfold data_lines.
  destruct (pieces s) as [|l ls]; [cbn in C; congruence|]. auto.
Qed.

Lemma concat_Forall {A} (P : A -> Prop) ls : Forall P (List.concat ls) -> Forall (Forall P) ls.
Proof.
  induction ls as [|l ls IH]; [constructor|]. cbn [List.concat]. rewrite Forall_app. intros [H1 H2]. auto.
Qed.

Lemma data_lines_forall (P : N -> Prop) s : Forall P s -> Forall (Forall P) (data_lines s).
Proof.
  intros H. unfold data_lines. destruct (pieces_spec s) as (C & _). destruct (pieces s) as [|l ls]; [repeat constructor|].
  apply concat_Forall. now rewrite C.
Qed.

(** The shape of the formatted text. *)
Theorem add_headers_lines s : s <> [] -> pem_data s ->
  exists ls, addPEMCertHeaders s = pem_text cert_label ls [] /\ addPEMPubKeyHeaders s = pem_text key_label ls []
    /\ List.concat ls = s /\ Forall pem_line ls
    /\ (forall l r, ls = l ++ r -> r <> [] -> Forall (fun x => List.length x = 64%nat) l).
Proof.
  intros N D. exists (data_lines s). destruct (data_lines_spec s N) as (C & F & A).
  split; [apply addPEMCertHeaders_text|]. split; [apply addPEMPubKeyHeaders_text|]. split; [exact C|]. split; [|exact A].
  assert (Forall (Forall pem_char) (data_lines s)) as G by now apply data_lines_forall.
  rewrite Forall_forall in *. intros x Hx. split; [now apply G|]. now apply F.
Qed.

Lemma cert_label_unbroken : unbroken cert_label. Proof. now apply unbroken_lit. Qed.
Lemma key_label_unbroken : unbroken key_label. Proof. now apply unbroken_lit. Qed.

Lemma concat_data_lines s : List.concat (data_lines s) = s.
Proof. destruct s as [|c s]; [reflexivity|]. now apply data_lines_spec. Qed.

Theorem strip_add s : pem_data s ->
  strip_pem (addPEMCertHeaders s) = s /\ strip_pem (addPEMCertHeaders s ++ [c_nl]) = s
  /\ strip_pem (addPEMPubKeyHeaders s) = s /\ strip_pem (addPEMPubKeyHeaders s ++ [c_nl]) = s.
Proof.
  intros D. rewrite addPEMCertHeaders_text, addPEMPubKeyHeaders_text.
  assert (Forall unbroken (data_lines s)) as U by (apply data_lines_forall, pem_char_unbroken, D).
  assert (forall label ls, pem_text label ls [] ++ [c_nl] = pem_text label ls [c_nl]) as T.
  { intros. unfold pem_text. rewrite app_nil_r, <- !app_assoc. reflexivity. }
  rewrite !T, !strip_pem_text, !concat_data_lines; auto using cert_label_unbroken, key_label_unbroken.
Qed.

(** The same for certificate and key objects. *)
Theorem export_pem w c k ls ls' :
  Forall pem_data ls -> Forall pem_data ls' ->
  w_cert_pem w c = pem_text cert_label ls [c_nl] -> w_pubkey_pem w k = pem_text key_label ls' [c_nl] ->
  exportCertToPEM w c = List.concat ls /\ exportKeyToPEM w k = List.concat ls'.
Proof.
  intros F F' E E'. unfold exportCertToPEM, exportKeyToPEM. rewrite E, E'.
  rewrite !strip_pem_text; auto using cert_label_unbroken, key_label_unbroken.
  - eapply Forall_impl; [|exact F']. apply pem_char_unbroken.
  - eapply Forall_impl; [|exact F]. apply pem_char_unbroken.
Qed.

Lemma b64encode_data b : pem_data (b64encode b).
Proof.
  destruct (b64encode_shape b) as (d & k & -> & Hd & _). apply Forall_app. split.
  - apply Forall_forall. intros x Hx. rewrite forallb_forall in Hd. apply Hd in Hx.
    unfold is_b64_char, is_az, is_AZ, is_09, c_plus, c_slash in Hx. unfold pem_char. lia.
  - apply Forall_forall. intros x Hx. apply repeat_spec in Hx. subst. unfold pem_char, c_eq. lia.
Qed.
