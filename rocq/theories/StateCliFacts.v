(** The command line of verification_state.py. *)
From Coq Require Import Lia ZifyClasses ZifyN ZifyNat ZifyBool.
From Verif Require Import PyBase World Codec Receipt Json KeyStore VerifyReceipt State DepBase DepParser Verify DepExport StateCli ListFacts CodecFacts SpecReceipt ReceiptFacts RoundTrip RoundTrip2
  VerifyFacts SpecDep DepFacts SpecCluster ClusterFacts AcceptFacts SeqFacts DepTheorems SpecState StateFacts UpdateFacts SpecChunks ChunkFacts SpecDoc IncDoc IncBack IncTheorems SpecExport ExportFacts
  SpecConvert ConvertFacts SpecStateCli.
Open Scope N_scope.
Open Scope py_scope.
Import State.

Lemma index_spec (l : list regstate) i k : py_index l i = Ok k <->
  exists before x after, l = before ++ x :: after /\ List.length before = k /\ at_index i before after.
Proof.
  unfold py_index, at_index. split.
  - intros H. assert (k < List.length l)%nat as K.
    { destruct ((0 <=? i) && (i <? Z.of_nat (List.length l)))%Z eqn:E1; [apply Ok_inj in H; subst; lia|].
      destruct ((- Z.of_nat (List.length l) <=? i) && (i <? 0))%Z eqn:E2; [apply Ok_inj in H; subst; lia|discriminate]. }
    destruct (nth_error l k) as [x|] eqn:N; [|apply nth_error_None in N; lia].
    apply nth_error_split in N as (before & after & -> & L). exists before, x, after. split; [reflexivity|]. split; [exact L|].
    rewrite app_length in *. cbn [List.length] in *.
    destruct ((0 <=? i) && _)%Z eqn:E1 in H; [apply Ok_inj in H; left; lia|]. destruct (_ && (i <? 0))%Z eqn:E2 in H; [apply Ok_inj in H; right; lia|discriminate].
  - intros (before & x & after & -> & <- & A). rewrite app_length. cbn [List.length].
    set (n := List.length before) in *. set (m := List.length after) in *.
    destruct A as [->| ->].
    + destruct ((0 <=? Z.of_nat n) && (Z.of_nat n <? Z.of_nat (n + S m)))%Z eqn:E; [f_equal; lia|lia].
    + destruct ((0 <=? -1 - Z.of_nat m) && (-1 - Z.of_nat m <? Z.of_nat (n + S m)))%Z eqn:E; [lia|].
      destruct ((- Z.of_nat (n + S m) <=? -1 - Z.of_nat m) && (-1 - Z.of_nat m <? 0))%Z eqn:E2; [f_equal; lia|lia].
Qed.

Lemma get_spec (l : list regstate) i x : py_get l i = Ok x <-> exists before after, l = before ++ x :: after /\ at_index i before after.
Proof.
  unfold py_get. split.
  - intros H. apply bind_Ok in H as (k & K & H). apply index_spec in K as (b & y & a & -> & <- & A).
    rewrite nth_error_app2, Nat.sub_diag in H by lia. cbn [nth_error] in H. apply Ok_inj in H. subst y. eauto.
  - intros (b & a & -> & A). assert (py_index (b ++ x :: a) i = Ok (List.length b)) as -> by (apply index_spec; eauto 8).
    cbn [bind]. rewrite nth_error_app2, Nat.sub_diag by lia. reflexivity.
Qed.

Lemma set_nth_here {A} (b : list A) x y a : set_nth (List.length b) y (b ++ x :: a) = b ++ y :: a.
Proof. induction b as [|z b IH]; [reflexivity|]. cbn [List.length app set_nth]. now rewrite IH. Qed.

Lemma change_spec c n f c' : change_register c n f = Ok c' <->
  exists before r after, c_regs c = before ++ r :: after /\ at_index n before after /\ c' = Cluster (before ++ f r :: after) (c_used c).
Proof.
  unfold change_register. split.
  - intros H. apply bind_Ok in H as (k & K & H). apply index_spec in K as (b & y & a & E & <- & A). rewrite E in *.
    assert (py_get (b ++ y :: a) n = Ok y) as G by (apply get_spec; eauto). rewrite G in H. cbn [bind] in H. apply Ok_inj in H. subst c'.
    rewrite set_nth_here. eauto 8.
  - intros (b & r & a & E & A & ->). rewrite E. assert (py_index (b ++ r :: a) n = Ok (List.length b)) as -> by (apply index_spec; eauto 8).
    assert (py_get (b ++ r :: a) n = Ok r) as -> by (apply get_spec; eauto). cbn [bind]. now rewrite set_nth_here.
Qed.

Lemma split_at_none a : arg_str_or_none a = None /\ a = lit "None" \/ arg_str_or_none a = Some a /\ a <> lit "None".
Proof.
  unfold arg_str_or_none. destruct (str_eqb a (lit "None")) eqn:E; [left|right].
  - apply str_eqb_eq in E. auto.
  - split; [reflexivity|]. intros ->. rewrite str_eqb_refl in E. discriminate.
Qed.

Lemma edit_change w b cmd n c c' f : (forall r, edits cmd n r (f r)) -> (forall m r r', edits cmd m r r' -> m = n /\ r' = f r) ->
  (forall x y, changes w b cmd x y -> exists m be r r' a u, x = Cluster (be ++ r :: a) u /\ y = Cluster (be ++ r' :: a) u /\ edits cmd m r r' /\ at_index m be a) ->
  change_register c n f = Ok c' <-> changes w b cmd c c'.
Proof.
  intros E1 E2 E3. rewrite change_spec. split.
  - intros (be & r & a & E & A & ->). destruct c as [l u]. cbn [c_regs c_used] in *. subst l. apply (ch_edit w b cmd n); [apply E1|exact A].
  - intros H. apply E3 in H as (m & be & r & r' & a & u & -> & -> & H & A). apply E2 in H as [-> ->]. cbn [c_regs c_used]. eauto 8.
Qed.

Ltac inv H := inversion H; subst.

Lemma add_spec w b c c' : addNewCashRegister c = Ok c' <-> changes w b S_add c c'.
Proof.
  unfold addNewCashRegister. destruct c as [l u]. cbn [c_regs c_used]. split.
  - intros H. destruct (rev l) as [|r t] eqn:E.
    + apply Ok_inj in H. subst c'. assert (l = []) as -> by (rewrite <- (rev_involutive l), E; reflexivity). constructor.
    + assert (l = rev t ++ [r]) as -> by (rewrite <- (rev_involutive l), E; reflexivity).
      destruct (s_start r) as [[|x s]|] eqn:S; cbn [truthy] in H; try discriminate. apply Ok_inj in H. subst c'.
      rewrite <- app_assoc. cbn [app]. now apply (ch_add w b (rev t) r (x :: s) u).
  - intros H. inversion H as [|u0 Eu| | | |cmd n be r r' a u0 Ed A|]; subst; [reflexivity| |inversion Ed].
    rewrite rev_app_distr. cbn [rev app]. match goal with S : s_start _ = Some _, N : _ <> [] |- _ => rewrite S; destruct s; [congruence|] end.
    cbn [truthy]. rewrite <- app_assoc. reflexivity.
Qed.

Lemma reset_spec w b n c c' : updateCashRegisterInfo c (Some n) new_register (used_new b) = Ok c' <-> changes w b (S_reset n) c c'.
Proof.
  unfold updateCashRegisterInfo. destruct c as [l u]. cbn [c_regs c_used]. split.
  - intros H. destruct ((0 <=? n) && (n <? Z.of_nat (List.length l)))%Z eqn:E; [|discriminate]. assert (py_index l n = Ok (Z.to_nat n)) as K by (unfold py_index; now rewrite E).
    destruct (0 <=? n)%Z eqn:E0; [|discriminate]. apply Ok_inj in H. subst c'.
    apply index_spec in K as (be & x & a & -> & L & _). rewrite <- L, set_nth_here. constructor. lia.
  - intros H. inversion H as [| | |n0 be r a u0 Ez| |cmd n0 be r r' a u0 Ed A|]; subst; [|inversion Ed].
    rewrite app_length. cbn [List.length].
    destruct ((0 <=? Z.of_nat (List.length be)) && (Z.of_nat (List.length be) <? Z.of_nat (List.length be + S (List.length a))))%Z eqn:E; [|lia].
    destruct (0 <=? Z.of_nat (List.length be))%Z eqn:E2; [|lia]. rewrite Nat2Z.id, set_nth_here. reflexivity.
Qed.

Lemma delete_spec w b n c c' : delete_register c n = Ok c' <-> changes w b (S_delete n) c c'.
Proof.
  unfold delete_register. destruct c as [l u]. cbn [c_regs c_used].
  assert (forall (be : list regstate) x a, firstn (List.length be) (be ++ x :: a) ++ skipn (S (List.length be)) (be ++ x :: a) = be ++ a) as K.
  { intros be x a. rewrite firstn_app, firstn_all, Nat.sub_diag. cbn [firstn]. rewrite app_nil_r. f_equal.
    replace (be ++ x :: a) with ((be ++ [x]) ++ a) by (now rewrite <- app_assoc).
    rewrite skipn_app. rewrite skipn_all2 by (rewrite app_length; cbn [List.length]; lia).
    replace (S (List.length be) - List.length (be ++ [x]))%nat with 0%nat by (rewrite app_length; cbn [List.length]; lia). reflexivity. }
  split.
  - intros H. apply bind_Ok in H as (k & I & H). apply index_spec in I as (be & x & a & -> & <- & A). apply Ok_inj in H. subst c'. rewrite K. now constructor.
  - intros H. inversion H as [| | | |n0 be r a u0 A|cmd n0 be r r' a u0 Ed A|]; subst; [|inversion Ed].
    assert (py_index (be ++ r :: a) n = Ok (List.length be)) as -> by (apply index_spec; eauto 8). cbn [bind]. now rewrite K.
Qed.

Ltac edit_one :=
  apply edit_change;
  [ intros r0; constructor; try assumption
  | intros m r0 r' E; inversion E; subst; try congruence; auto
  | intros x y H; inversion H; subst; eauto 12 ].

Lemma edits_by w b cmd c c' : edit_cmd cmd = true ->
  match cmd with
  | S_add => addNewCashRegister c
  | S_reset n => updateCashRegisterInfo c (Some n) new_register (used_new b)
  | S_delete n => delete_register c n
  | S_setLast n a => change_register c n (fun r => RegState (s_start r) (arg_str_or_none a) (s_counter r) (s_restore r) (s_chain r))
  | S_setCounter n z => change_register c n (fun r => RegState (s_start r) (s_last r) z (s_restore r) (s_chain r))
  | S_setChain n a => change_register c n (fun r => RegState (s_start r) (s_last r) (s_counter r) (s_restore r) (arg_str_or_none a))
  | S_toggle n => change_register c n (fun r => RegState (s_start r) (s_last r) (s_counter r) (negb (s_restore r)) (s_chain r))
  | S_setStart n a => change_register c n (fun r => RegState (arg_str_or_none a) (s_last r) (s_counter r) (s_restore r) (s_chain r))
  | S_readIds file => Ok (Cluster (c_regs c) (fold_left used_add (ids_of_file w file) (used_new b)))
  | S_copy n source m =>
      do c2 <- cluster_of_json (load source);
      do r <- py_get (c_regs c2) m;
      change_register c n (fun _ => r)
  | S_update n dep key => Err PyException
  | _ => Ok c
  end = Ok c' <-> changes w b cmd c c'.
Proof.
  intros Ec. destruct cmd; try discriminate Ec.
  - split; [intros H; apply Ok_inj in H; subst; constructor|]. intros H. inversion H as [| | | | |? ? ? ? ? ? ? Ed _|]; subst; [reflexivity|inversion Ed].
  - apply add_spec.
  - apply reset_spec.
  - apply delete_spec.
  - destruct (split_at_none arg) as [[-> ->]|[-> N]]; edit_one.
  - edit_one.
  - destruct (split_at_none arg) as [[-> ->]|[-> N]]; edit_one.
  - edit_one.
  - destruct (split_at_none arg) as [[-> ->]|[-> N]]; edit_one.
  - destruct c as [l u]. cbn [c_regs]. split; [intros H; apply Ok_inj in H; subst; constructor|].
    intros H. inversion H as [| | | | |? ? ? ? ? ? ? Ed _|]; subst; [inversion Ed|reflexivity].
  - split.
    + intros H. apply bind_Ok in H as (src & S & H). apply bind_Ok in H as (r & G & H). apply get_spec in G as (x & y & E & A).
      apply change_spec in H as (be & r0 & a & Er & A0 & ->). destruct c as [l u]. cbn [c_regs c_used] in *. subst l.
      apply (ch_edit w b _ n); [|exact A0]. eapply ed_copy; eassumption.
    + intros H. inversion H as [| | | | |cmd n0 be r r' a u Ed A|]; subst. inversion Ed as [| | | | | | | |? ? ? ? src x y ? S Ex Ax]; subst.
      rewrite S. cbn [bind]. assert (py_get (c_regs src) m = Ok r') as -> by (apply get_spec; eauto). cbn [bind].
      apply change_spec. cbn [c_regs c_used]. eauto 8.
Qed.

Lemma changes_wf w b cmd c c' : changes w b cmd c c' -> wf_used (c_used c) -> wf_used (c_used c').
Proof.
  intros H. inversion H; subst; cbn [c_used]; auto; intros _; [apply wf_used_new|]. apply wf_used_fold, wf_used_new.
Qed.

(** C52 *)
Theorem edit_spec w py b k cmd s s' : edit_cmd cmd = true ->
  state_py w py b k cmd s = Ok s' <->
  exists c c', cluster_of_json (load s) = Ok c /\ changes w b cmd c c' /\ s' = cluster_to_json c' /\ cluster_of_json (load s') = Ok c'.
Proof.
  intros Ec. split.
  - intros H. unfold state_py in H. apply bind_Ok in H as (c' & H & E). apply Ok_inj in E. subst s'.
    assert (exists c, cluster_of_json (load s) = Ok c /\ changes w b cmd c c') as (c & R & C).
    { destruct cmd; try discriminate Ec; apply bind_Ok in H as (c & R & H); exists c; (split; [exact R|]); apply (edits_by w b _ c c' Ec); exact H. }
    exists c, c'. split; [exact R|]. split; [exact C|]. split; [reflexivity|]. apply cluster_file_roundtrip. eapply changes_wf; [exact C|]. now apply cluster_read_wf in R.
  - intros (c & c' & R & C & -> & _). unfold state_py. apply (edits_by w b _ c c' Ec) in C. destruct cmd; try discriminate Ec; rewrite R; cbn [bind]; first [apply Ok_inj in C; subst; reflexivity|rewrite C; reflexivity].
Qed.

Lemma map_strip_lines w ids : Forall (no_edge_space w) ids -> map (strip (char_isspace w)) (map (fun i => i ++ [c_nl]) ids) = ids.
Proof. induction 1 as [|i l N F IH]; [reflexivity|]. cbn [map]. now rewrite strip_nl, IH. Qed.

Lemma id_file_read w ids : Forall (fun i => ~ In c_nl i /\ ~ In 13 i /\ no_edge_space w i) ids -> ids_of_file w (Some (id_file ids)) = ids.
Proof.
  intros F. unfold ids_of_file, id_file. rewrite newlines_id, lines_table.
  - apply map_strip_lines. eapply Forall_impl; [|exact F]. cbn beta. tauto.
  - eapply Forall_impl; [|exact F]. cbn beta. tauto.
  - intros X. apply in_concat in X as (l & Hl & X). apply in_map_iff in Hl as (l0 & <- & Hl). apply in_app_or in X as [X|[X|[]]]; [|discriminate].
    rewrite Forall_forall in F. specialize (F l0 Hl). tauto.
Qed.

(** ** The register after a DEP that was not verified *)

Lemma counter_rule_app w key l1 l2 : forall c, counter_rule w key c (l1 ++ l2) ->
  counter_rule w key c l1 /\ counter_rule w key (match key with None => c | Some _ => c + amounts l1 end)%Z l2.
Proof.
  intros c H. split.
  - intros k E. destruct (H k E) as [A B]. split; [intros i I; apply A; apply in_or_app; now left|].
    intros a i d Ed S. apply (B a i (d ++ l2)); [|exact S]. rewrite Ed, <- app_assoc. reflexivity.
  - intros k ->. destruct (H k eq_refl) as [A B]. split; [intros i I; apply A; apply in_or_app; now right|].
    intros a i d Ed S. destruct (B (l1 ++ a) i d) as (z & T & D); [now rewrite Ed, app_assoc|exact S|].
    exists (z - amounts l1)%Z. rewrite <- app_assoc in T. apply turnover_iff in T as [T1 T2]. split.
    + apply turnover_iff. split; [intros j J; apply T1; apply in_or_app; now right|]. rewrite T2, amounts_app. lia.
    + replace (c + amounts l1 + (z - amounts l1))%Z with (c + z)%Z by lia. exact D.
Qed.

Lemma counter_of_after key reg p l : s_counter (after key reg p l) = (match key with None => s_counter reg | Some _ => s_counter reg + amounts l end)%Z.
Proof.
  destruct l as [|i l0] eqn:E; [destruct key; [unfold after, amounts; cbn; lia|reflexivity]|]. rewrite <- E.
  rewrite after_fields by (rewrite E; discriminate). cbn [s_counter]. apply regs_fields.
Qed.

Lemma update_pieces w n key before after_ u : at_index n before after_ -> forall groups reg p l,
  Forall2 (denotes_item w) (flat_map g_recs groups) l -> past_of w reg p -> usual reg -> counter_rule w key (s_counter reg) l ->
  update_groups w n key groups (Cluster (before ++ reg :: after_) u) = Ok (Cluster (before ++ after key reg p l :: after_) u).
Proof.
  intros A. induction groups as [|g groups IH]; intros reg p l F P U C; cbn [flat_map] in F.
  - inversion F; subst. reflexivity.
  - apply Forall2_app_inv_l in F as (l1 & l2 & F1 & F2 & ->). apply counter_rule_app in C as [C1 C2]. cbn [update_groups c_regs].
    assert (py_get (before ++ reg :: after_) n = Ok reg) as -> by (apply get_spec; eauto). cbn [bind].
    rewrite (update_after w key reg (g_recs g) l1 p F1 P U C1). cbn [bind].
    assert (change_register (Cluster (before ++ reg :: after_) u) n (fun _ => after key reg p l1) = Ok (Cluster (before ++ after key reg p l1 :: after_) u)) as ->
      by (apply change_spec; cbn [c_regs c_used]; eauto 8).
    cbn [bind]. assert (Forall (fun i => reads w (i_jws i) (i_rec i)) l1) as R.
    { clear -F1. induction F1 as [|b i bs l [_ R] F IH]; constructor; assumption. }
    rewrite after_app. apply IH; [exact F2|now apply past_after|now apply (usual_after w)|]. now rewrite counter_of_after.
Qed.

(** ** Fewer used IDs *)
Lemma fresh_fewer w l : forall a b ch, incl b a -> fresh_ids w (Unique a) ch l -> fresh_ids w (Unique b) ch l.
Proof.
  induction l as [|x l IH]; intros a b ch I H; [exact H|]. cbn [fresh_ids] in *. destruct H as [H1 H2].
  assert (mem x b = true -> mem x a = true) as M by (rewrite !mem_In; apply I). split.
  - intros E. specialize (H1 E). cbn [used_check] in *. destruct (mem x a) eqn:Ea; [discriminate|]. destruct (mem x b) eqn:Eb; [now specialize (M eq_refl)|reflexivity].
  - cbn [used_add] in *. destruct (mem x a) eqn:Ea; destruct (mem x b) eqn:Eb; (eapply IH; [|exact H2]); intros y Hy; rewrite ?in_app_iff in *; cbn [In] in *.
    + now apply I.
    + destruct Hy as [Hy|[<-|[]]]; [now apply I|]. now apply mem_In.
    + now specialize (M eq_refl).
    + destruct Hy as [Hy|Hy]; [left; now apply I|now right].
Qed.

Lemma fewer_used w dep ks key regs a b idx c1 : hash_ok w -> incl b a -> verifyDEP w dep ks key (Cluster regs (Unique a)) idx = (c1, None) ->
  exists c2, verifyDEP w dep ks key (Cluster regs (Unique b)) idx = (c2, None) /\ c_regs c2 = c_regs c1.
Proof.
  intros HO I H. apply verifyDEP_spec in H as (be & reg & af & reg' & p & items & S & D & P & (V1 & V2 & V3 & V4 & V5) & R & ->); [|exact HO]. cbn [c_used] in *.
  exists (Cluster (be ++ reg' :: af) (used_after (Unique b) items)). split; [|reflexivity]. apply verifyDEP_spec; [exact HO|].
  exists be, reg, af, reg', p, items. split; [eapply selects_used; exact S|]. split; [exact D|]. split; [exact P|]. split; [|split; [exact R|reflexivity]].
  split; [exact V1|]. split; [exact V2|]. split; [exact V3|]. split; [exact V4|]. intros N. destruct (V5 N) as (q & E & C & Ch & F). exists q.
  split; [exact E|]. split; [exact C|]. split; [exact Ch|]. eapply fresh_fewer; eassumption.
Qed.

(** C53 *)
Lemma items_texts ks gs : map fst (dep_texts ks gs) = all_texts gs.
Proof.
  unfold dep_texts, all_texts. induction gs as [|g gs IH]; [reflexivity|]. cbn [flat_map]. rewrite map_app, map_map, IH. cbn [fst]. now rewrite map_id.
Qed.

Lemma item_texts_denote w l items : Forall2 (text_item w) l items -> Forall2 (denotes_item w) (map fst l) items.
Proof.
  induction 1 as [|[s v] i l items (E & R & _) F IH]; [constructor|]. cbn [map fst] in *. constructor; [|exact IH]. split; [|now rewrite E].
  rewrite E. assert (fromJWSString w s = Ok (i_rec i, lit "R1")) as J by now apply parse_reads. apply text_read in J as [J _]. now apply utf8_decode_encode.
Qed.

Theorem update_verified w py b k n doc gs key ks s c before reg after_ c' : hash_ok w -> plain_names doc -> dep_doc w doc gs ->
  cluster_of_json (load s) = Ok c -> c_regs c = before ++ reg :: after_ -> usual reg -> at_index n before after_ ->
  verifyDEP w (load doc) ks key c (Some (Z.of_nat (List.length before))) = (c', None) ->
  exists s', state_py w py b k (S_update n doc key) s = Ok s' /\ cluster_of_json (load s') = Ok (Cluster (c_regs c') (c_used c)).
Proof.
  intros HO Pl D R Er U A V. apply verifyDEP_spec in V as (be & reg0 & af & reg' & p & items & S & (gs' & D' & _ & F & N) & P & V & Ra & ->); [|exact HO].
  destruct (selects_fun _ _ _ _ _ _ _ _ S (sel_old c before reg after_ Er)) as (-> & -> & ->).
  rewrite (dep_is_fun _ _ _ _ D' (load_doc _ _ _ D)) in F. pose proof (item_texts_denote _ _ _ F) as F'. rewrite items_texts in F'.
  assert (all_texts gs <> []) as N' by (intros X; rewrite X in F'; inversion F'; congruence).
  assert (texts_read w gs) as T.
  { apply Forall_forall. intros g G. apply Forall_forall. intros t Ht.
    assert (In t (all_texts gs)) as I by (unfold all_texts; apply in_flat_map; eauto). rewrite <- (items_texts ks gs) in I. apply in_map_iff in I as ((t' & v) & Et & I). cbn [fst] in Et. subst t'.
    clear -F I. induction F as [|[s0 v0] i l m (E & R & _) F IH]; [destruct I|]. destruct I as [I|I]; [|now apply IH]. injection I as -> ->.
    exists (i_rec i, lit "R1"). now apply parse_reads. }
  destruct (certless_texts w doc k gs Pl D N' T) as (cs & Pc & E). rewrite <- E in F'.
  apply (register_after_iff _ _ _ _ _ _ _ _ V) in Ra. subst reg'.
  exists (cluster_to_json (Cluster (before ++ SeqFacts.after key reg p items :: after_) (c_used c))). split.
  - unfold state_py. rewrite R. cbn [bind]. unfold update_register. rewrite Pc. cbn [fst snd]. destruct c as [l u]. cbn [c_regs c_used] in *. subst l.
    rewrite (update_pieces w n key before after_ u A (List.concat cs) reg p items F' P U) by (apply V). reflexivity.
  - cbn [c_regs]. apply cluster_file_roundtrip. cbn [c_used]. now apply cluster_read_wf in R.
Qed.

(** A further DEP is accepted after it, as after verification. *)
Theorem update_continues w py b k n doc gs key ks s c before reg after_ c' ids doc2 c2 : hash_ok w -> plain_names doc -> dep_doc w doc gs ->
  cluster_of_json (load s) = Ok c -> c_used c = Unique ids -> c_regs c = before ++ reg :: after_ -> usual reg -> at_index n before after_ ->
  verifyDEP w (load doc) ks key c (Some (Z.of_nat (List.length before))) = (c', None) ->
  verifyDEP w (load doc2) ks key c' (Some (Z.of_nat (List.length before))) = (c2, None) ->
  exists s' cu c2', state_py w py b k (S_update n doc key) s = Ok s' /\ cluster_of_json (load s') = Ok cu
    /\ verifyDEP w (load doc2) ks key cu (Some (Z.of_nat (List.length before))) = (c2', None) /\ c_regs c2' = c_regs c2.
Proof.
  intros HO Pl D R Eu Er U A V V2. destruct (update_verified w py b k n doc gs key ks s c before reg after_ c' HO Pl D R Er U A V) as (s' & E & R').
  assert (exists ids', c_used c' = Unique ids' /\ incl ids ids') as (ids' & Eu' & I).
  { apply verifyDEP_spec in V as (be & reg0 & af & reg' & p & items & _ & _ & _ & _ & _ & ->); [|exact HO]. rewrite Eu. cbn [c_used].
    destruct (used_after_unique ids items) as (l' & El & H). exists l'. split; [exact El|]. intros x Hx. apply H. now left. }
  destruct c' as [regs' u']. cbn [c_used c_regs] in *. subst u'. rewrite Eu in R'.
  destruct (fewer_used w (load doc2) ks key regs' ids' ids _ c2 HO I V2) as (c2' & V2' & E2). eauto 8.
Qed.

(** ** The format of the receipt does not matter *)
Lemma url_no_space w c : is_url_char c \/ c = c_dot -> char_isspace w c = false.
Proof. intros H. unfold char_isspace, is_url_char, c_dash, c_us, c_dot in *. destruct (c <? 128) eqn:E; lia. Qed.

Lemma canonical_strip w h p g : canon_seg h -> canon_seg p -> canon_seg g -> strip (char_isspace w) (h ++ [c_dot] ++ p ++ [c_dot] ++ g) = h ++ [c_dot] ++ p ++ [c_dot] ++ g.
Proof.
  intros [H _] [P _] [G _]. apply strip_id.
  assert (forall c, In c (h ++ [c_dot] ++ p ++ [c_dot] ++ g) -> char_isspace w c = false) as A.
  { intros c Hc. apply url_no_space. rewrite !in_app_iff in Hc. cbn [In] in Hc. rewrite Forall_forall in H, P, G.
    destruct Hc as [Hc|[[<-|[]]|[Hc|[[<-|[]]|Hc]]]]; auto. }
  split; intros c u E; apply A; rewrite E; [now left|]. apply in_or_app. right. now left.
Qed.

Lemma qr_strip w f sb : is_bytes sb -> strip (char_isspace w) (payload_text f ++ [c_us] ++ b64encode sb) = payload_text f ++ [c_us] ++ b64encode sb.
Proof.
  intros Sb. apply strip_id. destruct (b64encode_safe w sb Sb) as (_ & _ & _ & B). split.
  - intros c u E. unfold payload_text in E. cbn [join app] in E. injection E as <- _. reflexivity.
  - intros c u E. destruct (b64encode sb) as [|x y] using rev_ind.
    + cbn [app] in E. rewrite app_nil_r in E || idtac. apply app_inj_tail in E as [_ <-]. reflexivity.
    + rewrite !app_assoc in E. apply app_inj_tail in E as [_ <-]. exact (B x y eq_refl).
Qed.

Theorem from_formats w py b k key t r s : tabular w t -> reads w t r ->
  exists qr csv, toBasicCode r (lit "R1") = Ok qr /\ toCSV r (lit "R1") = Ok csv
    /\ state_py w py b k (S_from F_qr qr key) s = state_py w py b k (S_from F_jws t key) s
    /\ state_py w py b k (S_from F_csv csv key) s = state_py w py b k (S_from F_jws t key) s
    /\ state_py w py b k (S_fromStart F_qr qr) s = state_py w py b k (S_fromStart F_jws t) s
    /\ state_py w py b k (S_fromStart F_csv csv) s = state_py w py b k (S_fromStart F_jws t) s.
Proof.
  intros ((h & p & g & Et & Ch & Cp & Cg) & r' & R' & S & Nl) R. pose proof (reads_fun _ _ _ _ R' R). subst r'.
  assert (fromJWSString w t = Ok (r, lit "R1")) as J by now apply parse_reads.
  pose proof J as J0. apply fromJWSString_spec in J0 as (_ & f & sg & Jt & I). pose proof (jws_text_encodable _ _ _ _ Jt) as En.
  pose proof Jt as (h0 & p0 & hb0 & pb0 & sb & _ & _ & _ & _ & _ & G & W).
  assert (sg = g) as ->.
  { destruct Jt as (h' & p' & hb & pb & gb & Ej & Hh & _ & Hp & _ & Hg & _). rewrite Et in Ej. symmetry in Ej.
    apply dot_unique in Ej as (_ & _ & ->); [reflexivity| | |]; (eapply seg_no_dot; first [apply Hh|apply Hp|apply Hg]). }
  pose proof (proj2 (canonical_sig_id w f g r sb I G) Cg) as Ec.
  destruct (jws_to_qr w t r (lit "R1") J) as (qr & b1 & (sg1 & S1 & G1) & Q & Bq).
  destruct (csv_roundtrip w t r (lit "R1") J S) as (csv & b2 & (sg2 & S2 & G2) & C & Bc).
  assert (r_sig r = Some (es256_header, g)) as Sg by apply I. rewrite Sg in S1, S2. injection S1 as <-. injection S2 as <-.
  assert (b1 = sb) as -> by (destruct G as [_ G]; destruct G1 as [_ G1]; congruence).
  assert (b2 = sb) as -> by (destruct G as [_ G]; destruct G2 as [_ G2]; congruence).
  rewrite Ec in Bq, Bc. exists qr, csv. split; [exact Q|]. split; [exact C|].
  pose proof (seg_decodes_bytes _ _ G) as Sb. pose proof (canonical_strip w h p g Ch Cp Cg) as St. rewrite <- Et in St.
  assert (strip (char_isspace w) qr = qr) as Sq.
  { rewrite (toBasicCode_spec w f g r sb) in Q by assumption. apply Ok_inj in Q. subst qr. now apply qr_strip. }
  assert (strip (char_isspace w) csv = csv) as Sc.
  { apply strip_id. apply (line_clean w t r csv R S Nl C). }
  unfold state_py, read_format. rewrite St, Sq, Sc, Bq, Bc, J. auto.
Qed.
