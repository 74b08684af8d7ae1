(** Merging of groups with the same certificate. *)
From Coq Require Import Permutation Lia Arith.
From Verif Require Import PyBase World DepParser DepExport SpecMerge ListFacts.
Open Scope nat_scope.

Lemma cert_eqb_eq a b : cert_eqb a b = true <-> a = b.
Proof.
  destruct a, b; cbn [cert_eqb]; split; intros; try easy.
  - apply str_eqb_eq in H. now subst.
  - injection H as ->. apply str_eqb_refl.
Qed.
Lemma cert_eqb_neq a b : cert_eqb a b = false <-> a <> b.
Proof. rewrite <- cert_eqb_eq. destruct (cert_eqb a b); split; intros; congruence. Qed.
Lemma chain_eqb_eq a : forall b, chain_eqb a b = true <-> a = b.
Proof.
  induction a as [|x a IH]; intros [|y b]; cbn [chain_eqb]; split; intros; try easy.
  - apply andb_prop in H as [H1 H2]. apply str_eqb_eq in H1. apply IH in H2. now subst.
  - injection H as -> ->. rewrite str_eqb_refl. now apply IH.
Qed.
Lemma chain_eqb_refl a : chain_eqb a a = true.
Proof. now apply chain_eqb_eq. Qed.

Section Merge.
Context {A : Type}.
Implicit Types (gs : list (rgroup A)) (b : list A) (g : rgroup A) (olds streams : list (inner A)).

(** ** Group by group *)

(** Runs of groups with the same certificate become one group. *)
Fixpoint merged gs : list (rgroup A) :=
  match gs with
  | [] => []
  | g :: r =>
      match merged r with
      | [] => [g]
      | h :: t => if cert_eqb (rg_cert g) (rg_cert h)
                  then RGroup (rg_recs g ++ rg_recs h) (rg_cert g) (rg_chain g) :: t
                  else g :: h :: t
      end
  end.

(** The groups at the beginning with the certificate [c], and the others *)
Fixpoint run_of (c : option cert) gs : list (rgroup A) * list (rgroup A) :=
  match gs with
  | [] => ([], [])
  | g :: r => if cert_eqb c (rg_cert g) then (g :: fst (run_of c r), snd (run_of c r)) else ([], gs)
  end.

Lemma run_of_app c gs : fst (run_of c gs) ++ snd (run_of c gs) = gs.
Proof. induction gs as [|g r IH]; cbn [run_of]; [reflexivity|]. destruct cert_eqb; cbn [fst snd app]; now rewrite ?IH. Qed.

Lemma run_of_rest c gs g r : snd (run_of c gs) = g :: r -> cert_eqb c (rg_cert g) = false.
Proof.
  induction gs as [|h t IH]; cbn [run_of]; [easy|].
  destruct (cert_eqb c (rg_cert h)) eqn:E; cbn [snd]; [apply IH|]. intros H. now injection H as <- _.
Qed.

Lemma merged_run gs : forall g, merged (g :: gs) =
  RGroup (rg_recs g ++ flat_map rg_recs (fst (run_of (rg_cert g) gs))) (rg_cert g) (rg_chain g)
  :: merged (snd (run_of (rg_cert g) gs)).
Proof.
  induction gs as [|h t IH]; intros g.
  - cbn [merged run_of fst snd flat_map]. rewrite app_nil_r. now destruct g.
  - cbn [run_of]. change (merged (g :: h :: t)) with
      (match merged (h :: t) with
      | [] => [g]
      | h :: t => if cert_eqb (rg_cert g) (rg_cert h)
                  then RGroup (rg_recs g ++ rg_recs h) (rg_cert g) (rg_chain g) :: t
                  else g :: h :: t
      end).
    rewrite IH. cbn [rg_cert rg_recs]. destruct (cert_eqb (rg_cert g) (rg_cert h)) eqn:E.
    + apply cert_eqb_eq in E. cbn [fst snd flat_map]. now rewrite E.
    + cbn [fst snd flat_map]. rewrite app_nil_r, IH. now destruct g.
Qed.

Lemma work_cons g gs : work (g :: gs) = S (List.length (rg_recs g) + work gs).
Proof. reflexivity. Qed.
Lemma work_app gs gs' : work (gs ++ gs') = work gs + work gs'.
Proof. induction gs as [|g r IH]; [reflexivity|]. cbn [app]. rewrite !work_cons, IH. lia. Qed.

Lemma nth_last {X} (l : list X) x : nth_error (l ++ [x]) (List.length l) = Some x.
Proof. rewrite nth_error_app2, Nat.sub_diag; auto. Qed.
Lemma replace_last {X} (l : list X) x y : replace_nth (List.length l) (l ++ [x]) y = l ++ [y].
Proof. induction l; cbn [List.length replace_nth app]; [reflexivity|]. now rewrite IHl. Qed.

Lemma next_cons a b c ch rest olds :
  next_receipt (Merging rest (olds ++ [Inner (a :: b) c ch])) (List.length olds) =
  Some (Got a, Merging rest (olds ++ [Inner b c ch])).
Proof.
  unfold next_receipt. cbn [mg_streams mg_backing]. rewrite nth_last. destruct rest as [gs e].
  cbn [in_cert in_backing in_chain fst snd]. destruct gs; cbn [inner_send]; now rewrite replace_last.
Qed.

Lemma next_same c ch g r e olds : cert_eqb c (rg_cert g) = true ->
  next_receipt (Merging (g :: r, e) (olds ++ [Inner [] c ch])) (List.length olds) =
  next_receipt (Merging (r, e) (olds ++ [Inner (rg_recs g) c ch])) (List.length olds).
Proof.
  intros E. unfold next_receipt. cbn [mg_streams mg_backing]. rewrite !nth_last.
  cbn [in_cert in_backing in_chain fst snd]. cbn [inner_send]. rewrite E, chain_eqb_refl. cbn [andb].
  destruct (inner_send c (rg_recs g) r e) as [[x bk] rest]. now rewrite !replace_last.
Qed.

Lemma drain_same fuel c ch g r e olds : cert_eqb c (rg_cert g) = true ->
  drain_receipts fuel (Merging (g :: r, e) (olds ++ [Inner [] c ch])) (List.length olds) =
  drain_receipts fuel (Merging (r, e) (olds ++ [Inner (rg_recs g) c ch])) (List.length olds).
Proof. intros E. destruct fuel; [reflexivity|]. cbn [drain_receipts]. now rewrite (next_same c ch g r e olds E). Qed.

Lemma drain_run gs : forall b c ch e olds fuel, List.length b + work gs < fuel ->
  drain_receipts fuel (Merging (gs, e) (olds ++ [Inner b c ch])) (List.length olds) =
  Some (b ++ flat_map rg_recs (fst (run_of c gs)),
        match snd (run_of c gs) with [] => e | _ => None end,
        Merging (match snd (run_of c gs) with [] => s_end | r => (r, e) end) (olds ++ [Inner [] c ch])).
Proof.
  induction gs as [|g r IH]; intros b c ch e olds.
  - induction b as [|a b IHb]; intros fuel Hf; (destruct fuel as [|fuel]; [lia|]).
    + cbn [drain_receipts]. unfold next_receipt. cbn [mg_streams mg_backing]. rewrite nth_last.
      cbn [in_cert in_backing in_chain fst snd inner_send]. rewrite replace_last. now destruct e.
    + cbn [drain_receipts]. rewrite next_cons. rewrite IHb by (cbn [List.length] in Hf; lia). reflexivity.
  - induction b as [|a b IHb]; intros fuel Hf; (destruct fuel as [|fuel]; [lia|]).
    + cbn [List.length] in Hf. rewrite work_cons in Hf. cbn [run_of].
      destruct (cert_eqb c (rg_cert g)) eqn:E.
      * rewrite (drain_same _ c ch g r e olds E). rewrite IH by lia. cbn [fst snd flat_map app].
        reflexivity.
      * cbn [drain_receipts]. unfold next_receipt. cbn [mg_streams mg_backing]. rewrite nth_last.
        cbn [in_cert in_backing in_chain fst snd inner_send]. rewrite E. cbn [andb]. rewrite replace_last. reflexivity.
    + cbn [drain_receipts]. rewrite next_cons. rewrite IHb by (cbn [List.length] in Hf; lia). reflexivity.
Qed.

Lemma last_stream_app (l : list (inner A)) x : last_stream (l ++ [x]) = Some x.
Proof. unfold last_stream. now rewrite rev_app_distr. Qed.

(** The state between two groups: whatever was handed out is exhausted, and the
    next group has another certificate than the last one. *)
Definition between (streams : list (inner A)) gs : Prop :=
  streams = [] \/ exists olds c ch, streams = olds ++ [Inner [] c ch]
    /\ match gs with [] => True | g :: _ => cert_eqb c (rg_cert g) = false end.

Lemma drain_merged n : forall gs e streams fuel, work gs <= n -> work gs < fuel -> between streams gs ->
  drain_groups fuel (Merging (gs, e) streams) = Some (merged gs, e).
Proof.
  induction n as [|n IH]; intros gs e streams fuel Hn Hf B; (destruct gs as [|g r]; [|rewrite work_cons in *]).
  1, 3: destruct fuel as [|fuel]; [cbn in Hf; lia|]; cbn [drain_groups]; unfold next_group; cbn [mg_backing mg_streams fst snd outer_send];
    destruct e; reflexivity.
  - lia.
  - destruct fuel as [|fuel]; [lia|]. rewrite merged_run.
    assert (next_group (Merging (g :: r, e) streams) =
      (Got (List.length streams, rg_cert g, rg_chain g), Merging (r, e) (streams ++ [Inner (rg_recs g) (rg_cert g) (rg_chain g)]))) as E.
    { unfold next_group. cbn [mg_backing mg_streams fst snd outer_send].
      destruct B as [->|(olds & c & ch & -> & Hc)]; [reflexivity|].
      rewrite last_stream_app. cbn [in_cert]. rewrite Hc. reflexivity. }
    cbn [drain_groups]. rewrite E. rewrite drain_run by lia.
    assert (Ha := run_of_app (rg_cert g) r). assert (Hr := run_of_rest (rg_cert g) r).
    destruct (run_of (rg_cert g) r) as [taken rest]. cbn [fst snd] in *.
    assert (work taken + work rest = work r) as Hw by (rewrite <- Ha, work_app; reflexivity).
    destruct rest as [|h t].
    + destruct e as [x|]; [reflexivity|]. rewrite (IH [] None); [reflexivity|cbn; lia|cbn; lia|].
      right. eexists _, _, _. split; [reflexivity|exact I].
    + rewrite (IH (h :: t) e); [reflexivity|lia|lia|].
      right. eexists _, _, _. split; [reflexivity|]. cbn. now apply (Hr h t).
Qed.

Theorem read_merged (s : stream (rgroup A)) : read_in_turn s = Some (merged (fst s), snd s).
Proof.
  unfold read_in_turn, MergingDEPStream. destruct s as [gs e]. cbn [fst snd].
  apply (drain_merged (work gs)); [lia|lia|now left].
Qed.

Lemma stamps_cons (g : rgroup A) gs : stamps (g :: gs) = map (fun r => (r, (rg_cert g, rg_chain g))) (rg_recs g) ++ stamps gs.
Proof. reflexivity. Qed.
Lemma stamps_app gs gs' : stamps (gs ++ gs') = stamps gs ++ stamps gs'.
Proof. unfold stamps. apply flat_map_app. Qed.
Lemma cert_stamps_cons (g : rgroup A) gs : cert_stamps (g :: gs) = map (fun r => (r, rg_cert g)) (rg_recs g) ++ cert_stamps gs.
Proof. reflexivity. Qed.
Lemma cert_stamps_app gs gs' : cert_stamps (gs ++ gs') = cert_stamps gs ++ cert_stamps gs'.
Proof. unfold cert_stamps. apply flat_map_app. Qed.

Lemma merged_certs gs : cert_stamps (merged gs) = cert_stamps gs.
Proof.
  induction gs as [|g r IH]; [reflexivity|]. cbn [merged]. rewrite cert_stamps_cons, <- IH.
  destruct (merged r) as [|h t]; [reflexivity|].
  destruct (cert_eqb (rg_cert g) (rg_cert h)) eqn:E; [|reflexivity].
  apply cert_eqb_eq in E. rewrite !cert_stamps_cons. cbn [rg_cert rg_recs].
  rewrite map_app, <- app_assoc. now rewrite E.
Qed.

Lemma neighbours_cons (P : rgroup A -> rgroup A -> Prop) g gs :
  (match gs with [] => True | h :: _ => P g h end) -> neighbours P gs -> neighbours P (g :: gs).
Proof.
  intros H N l1 a b l2 E. destruct l1 as [|x l1]; cbn [app] in E.
  - injection E as -> ->. exact H.
  - injection E as -> E. exact (N l1 a b l2 E).
Qed.
Lemma neighbours_tail (P : rgroup A -> rgroup A -> Prop) g gs : neighbours P (g :: gs) -> neighbours P gs.
Proof. intros N l1 a b l2 ->. apply (N (g :: l1) a b l2). reflexivity. Qed.
Lemma neighbours_head (P : rgroup A -> rgroup A -> Prop) g h gs : neighbours P (g :: h :: gs) -> P g h.
Proof. intros N. now apply (N [] g h gs). Qed.

Lemma merged_neighbours gs : neighbours (fun x y => rg_cert x <> rg_cert y) (merged gs).
Proof.
  induction gs as [|g r IH]; [intros [] ? ? ? E; discriminate|]. cbn [merged].
  destruct (merged r) as [|h t]; [apply neighbours_cons; [exact I|exact IH]|].
  destruct (cert_eqb (rg_cert g) (rg_cert h)) eqn:E.
  - apply cert_eqb_eq in E. apply neighbours_cons; [|now apply neighbours_tail in IH].
    destruct t as [|x t]; [exact I|]. cbn [rg_cert]. rewrite E. now apply neighbours_head in IH.
  - apply cert_eqb_neq in E. now apply neighbours_cons.
Qed.

Lemma merged_head g gs : exists recs t, merged (g :: gs) = RGroup recs (rg_cert g) (rg_chain g) :: t.
Proof. rewrite merged_run. eauto. Qed.

Lemma merged_stamps gs : neighbours (fun x y => rg_cert x = rg_cert y -> rg_chain x = rg_chain y) gs ->
  stamps (merged gs) = stamps gs.
Proof.
  induction gs as [|g r IH]; intros N; [reflexivity|]. specialize (IH (neighbours_tail _ _ _ N)).
  destruct r as [|g' r]; [reflexivity|]. apply neighbours_head in N.
  destruct (merged_head g' r) as (recs & t & Em). cbn [merged] in *. rewrite stamps_cons, <- IH. cbn [merged] in Em. rewrite Em in *.
  destruct (cert_eqb (rg_cert g) _) eqn:E; [|reflexivity]. cbn [rg_cert] in E.
  apply cert_eqb_eq in E. rewrite !stamps_cons. cbn [rg_cert rg_chain rg_recs]. rewrite map_app, <- app_assoc.
  now rewrite <- (N E), E.
Qed.

(** ** All groups first *)

(** Runs of groups with the same certificate and chain become one group. *)
Fixpoint joined gs : list (rgroup A) :=
  match gs with
  | [] => []
  | g :: r =>
      match joined r with
      | [] => [g]
      | h :: t => if cert_eqb (rg_cert g) (rg_cert h) && chain_eqb (rg_chain g) (rg_chain h)
                  then RGroup (rg_recs g ++ rg_recs h) (rg_cert g) (rg_chain g) :: t
                  else g :: h :: t
      end
  end.

Definition inner_of (g : rgroup A) : inner A := Inner (rg_recs g) (rg_cert g) (rg_chain g).

Lemma joined_absorb g h t : cert_eqb (rg_cert g) (rg_cert h) = true -> chain_eqb (rg_chain g) (rg_chain h) = true ->
  joined (g :: h :: t) = joined (RGroup (rg_recs g ++ rg_recs h) (rg_cert g) (rg_chain g) :: t).
Proof.
  intros E1 E2. apply cert_eqb_eq in E1. apply chain_eqb_eq in E2. destruct g as [gr gc gch], h as [hr hc hch].
  cbn [rg_cert rg_chain rg_recs] in *. subst hc hch. cbn [joined]. destruct (joined t) as [|x y].
  - cbn [rg_cert rg_chain rg_recs]. now rewrite (proj2 (cert_eqb_eq gc gc) eq_refl), chain_eqb_refl.
  - cbn [rg_cert rg_chain rg_recs]. destruct (cert_eqb gc (rg_cert x) && chain_eqb gch (rg_chain x));
      cbn [rg_cert rg_chain rg_recs]; rewrite (proj2 (cert_eqb_eq gc gc) eq_refl), chain_eqb_refl; cbn [andb]; [|reflexivity].
    now rewrite app_assoc.
Qed.

Lemma joined_new g h t : cert_eqb (rg_cert g) (rg_cert h) && chain_eqb (rg_chain g) (rg_chain h) = false ->
  joined (g :: h :: t) = g :: joined (h :: t).
Proof.
  intros E. cbn [joined]. destruct (joined t) as [|x y]; [cbn [rg_cert rg_chain]; now rewrite E|].
  destruct (cert_eqb (rg_cert h) (rg_cert x) && chain_eqb (rg_chain h) (rg_chain x)); cbn [rg_cert rg_chain]; now rewrite E.
Qed.

Definition handed (k : nat) gs : list (nat * option cert * list cert) :=
  combine (combine (seq k (List.length gs)) (map rg_cert gs)) (map rg_chain gs).

Lemma collect_joined gs : forall e olds last fuel, List.length gs < fuel ->
  exists l, collect_groups fuel (Merging (gs, e) (olds ++ [inner_of last])) =
    Some (l, e, Merging s_end (olds ++ map inner_of (joined (last :: gs))))
    /\ l = tl (handed (List.length olds) (joined (last :: gs))).
Proof.
  induction gs as [|g r IH]; intros e olds last fuel Hf; (destruct fuel as [|fuel]; [lia|]).
  - exists []. split; [|reflexivity]. cbn [collect_groups]. unfold next_group. cbn [mg_backing mg_streams fst snd outer_send joined map].
    now destruct e.
  - cbn [List.length] in Hf. destruct (cert_eqb (rg_cert last) (rg_cert g) && chain_eqb (rg_chain last) (rg_chain g)) eqn:E.
    + assert (E' := E). apply andb_prop in E' as [E1 E2]. rewrite (joined_absorb _ _ _ E1 E2).
      assert (next_group (Merging (g :: r, e) (olds ++ [inner_of last])) =
              next_group (Merging (r, e) (olds ++ [inner_of (RGroup (rg_recs last ++ rg_recs g) (rg_cert last) (rg_chain last))]))) as X.
      { unfold next_group. cbn [mg_backing mg_streams fst snd outer_send]. rewrite last_stream_app.
        unfold inner_of. cbn [in_cert in_chain in_backing rg_recs rg_cert rg_chain]. rewrite E1, E2. cbn [negb orb].
        rewrite removelast_last. reflexivity. }
      destruct (IH e olds (RGroup (rg_recs last ++ rg_recs g) (rg_cert last) (rg_chain last)) (S fuel)) as (l & H1 & H2); [lia|].
      exists l. split; [|exact H2]. cbn [collect_groups] in *. rewrite X. exact H1.
    + rewrite (joined_new _ _ _ E).
      assert (next_group (Merging (g :: r, e) (olds ++ [inner_of last])) =
              (Got (S (List.length olds), rg_cert g, rg_chain g), Merging (r, e) ((olds ++ [inner_of last]) ++ [inner_of g]))) as X.
      { unfold next_group. cbn [mg_backing mg_streams fst snd outer_send]. rewrite last_stream_app.
        unfold inner_of. cbn [in_cert in_chain in_backing rg_recs rg_cert rg_chain]. rewrite app_length. cbn [List.length]. rewrite Nat.add_1_r.
        destruct (cert_eqb (rg_cert last) (rg_cert g)); [|reflexivity]. cbn [andb] in E. rewrite E. reflexivity. }
      destruct (IH e (olds ++ [inner_of last]) g fuel) as (l & H1 & H2); [lia|].
      exists ((S (List.length olds), rg_cert g, rg_chain g) :: l). split.
      * cbn [collect_groups]. rewrite X, H1. cbn [map]. now rewrite <- app_assoc.
      * rewrite H2, app_length. cbn [List.length]. rewrite Nat.add_1_r. unfold handed. cbn [List.length seq map combine tl].
        cbn [joined]. destruct (joined r) as [|x y]; [reflexivity|].
        destruct (cert_eqb (rg_cert g) (rg_cert x) && chain_eqb (rg_chain g) (rg_chain x)); reflexivity.
Qed.

(** All groups are handed out, and their receipt streams hold all receipts. *)
Theorem collected_joined (s : stream (rgroup A)) fuel : List.length (fst s) < fuel ->
  collect_groups fuel (MergingDEPStream s) =
  Some (handed 0 (joined (fst s)), snd s, Merging s_end (map inner_of (joined (fst s)))).
Proof.
  destruct s as [gs e]. unfold MergingDEPStream. cbn [fst snd]. intros Hf. destruct fuel as [|fuel]; [lia|].
  destruct gs as [|g r].
  - cbn [collect_groups]. unfold next_group. cbn [mg_backing mg_streams fst snd outer_send joined map]. now destruct e.
  - cbn [List.length] in Hf. destruct (collect_joined r e [] g fuel) as (l & H1 & H2); [lia|].
    cbn [collect_groups]. unfold next_group at 1. cbn [mg_backing mg_streams fst snd outer_send].
    unfold last_stream at 1. cbn [rev]. cbn [List.length app] in *. unfold inner_of at 1 in H1. rewrite H1.
    rewrite H2. cbn [joined]. destruct (joined r) as [|x y]; [reflexivity|].
    destruct (cert_eqb (rg_cert g) (rg_cert x) && chain_eqb (rg_chain g) (rg_chain x)); reflexivity.
Qed.

(** A receipt stream then delivers its receipts, whatever else is called. *)
Lemma drain_exhausted b : forall streams i c ch fuel, nth_error streams i = Some (Inner b c ch) -> List.length b < fuel ->
  drain_receipts fuel (Merging s_end streams) i = Some (b, None, Merging s_end (replace_nth i streams (Inner [] c ch))).
Proof.
  assert (forall i (l : list (inner A)) x y, replace_nth i (replace_nth i l x) y = replace_nth i l y) as R.
  { induction i; intros [|z l] x y; cbn [replace_nth]; [reflexivity..|]. now rewrite IHi. }
  assert (forall i (l : list (inner A)) x z, nth_error l i = Some z -> nth_error (replace_nth i l x) i = Some x) as G.
  { induction i; intros [|y l] x z; cbn [replace_nth nth_error]; try easy. apply IHi. }
  assert (forall i (l : list (inner A)) z, nth_error l i = Some z -> replace_nth i l z = l) as I.
  { induction i; intros [|y l] z; cbn [replace_nth nth_error]; intros E; [easy|now injection E as ->|easy|now rewrite IHi]. }
  induction b as [|a b IH]; intros streams i c ch fuel E Hf; (destruct fuel as [|fuel]; [cbn in Hf; lia|]); cbn [drain_receipts];
    unfold next_receipt; cbn [mg_streams mg_backing]; rewrite E; cbn [in_cert in_chain in_backing fst snd inner_send s_end].
  - reflexivity.
  - rewrite (IH _ i c ch); [now rewrite R|now apply (G _ _ _ _ E)|cbn in Hf; lia].
Qed.

Lemma joined_stamps gs : stamps (joined gs) = stamps gs.
Proof.
  induction gs as [|g r IH]; [reflexivity|]. cbn [joined]. rewrite stamps_cons, <- IH.
  destruct (joined r) as [|h t]; [reflexivity|].
  destruct (cert_eqb (rg_cert g) (rg_cert h) && chain_eqb (rg_chain g) (rg_chain h)) eqn:E; [|reflexivity].
  apply andb_prop in E as [E1 E2]. apply cert_eqb_eq in E1. apply chain_eqb_eq in E2. rewrite !stamps_cons.
  cbn [rg_cert rg_recs rg_chain]. rewrite map_app, <- app_assoc. now rewrite E1, E2.
Qed.

Lemma joined_neighbours gs : neighbours (fun x y => rg_cert x <> rg_cert y \/ rg_chain x <> rg_chain y) (joined gs).
Proof.
  induction gs as [|g r IH]; [intros [] ? ? ? E; discriminate|]. cbn [joined].
  destruct (joined r) as [|h t]; [apply neighbours_cons; [exact I|exact IH]|].
  destruct (cert_eqb (rg_cert g) (rg_cert h) && chain_eqb (rg_chain g) (rg_chain h)) eqn:E.
  - apply andb_prop in E as [E1 E2]. apply cert_eqb_eq in E1. apply chain_eqb_eq in E2.
    apply neighbours_cons; [|now apply neighbours_tail in IH].
    destruct t as [|x t]; [exact I|]. cbn [rg_cert rg_chain]. rewrite E1, E2. now apply neighbours_head in IH.
  - apply neighbours_cons; [|exact IH]. apply andb_false_iff in E as [E|E].
    + left. now apply cert_eqb_neq.
    + right. intros X. apply chain_eqb_eq in X. congruence.
Qed.

(** ** Any use *)

Definition inner_stamps (l : list (inner A)) : list (A * option cert) :=
  flat_map (fun s => map (fun r => (r, in_cert s)) (in_backing s)) l.

Lemma inner_stamps_app l l' : inner_stamps (l ++ l') = inner_stamps l ++ inner_stamps l'.
Proof. apply flat_map_app. Qed.
Lemma inner_stamps_one s : inner_stamps [s] = map (fun r => (r, in_cert s)) (in_backing s).
Proof. unfold inner_stamps. cbn [flat_map]. apply app_nil_r. Qed.

Lemma last_stream_split (l : list (inner A)) s : last_stream l = Some s -> l = removelast l ++ [s].
Proof.
  unfold last_stream. intros H. assert (l = rev (rev l)) as E by (symmetry; apply rev_involutive).
  destruct (rev l) as [|x r]; [discriminate|]. injection H as ->. cbn [rev] in E. rewrite E at 2.
  rewrite removelast_last. exact E.
Qed.

Lemma group_pending gs : forall e streams,
  Permutation (inner_stamps streams ++ cert_stamps gs)
    (pending (snd (outer_send gs e streams))).
Proof.
  unfold pending. fold (@inner_stamps). induction gs as [|g r IH]; intros e streams; cbn [outer_send].
  - destruct e; reflexivity.
  - assert (Permutation (inner_stamps streams ++ cert_stamps (g :: r))
       (inner_stamps (streams ++ [Inner (rg_recs g) (rg_cert g) (rg_chain g)]) ++ cert_stamps r)) as P.
    { rewrite inner_stamps_app, inner_stamps_one, cert_stamps_cons, <- app_assoc. reflexivity. }
    destruct (last_stream streams) as [s|] eqn:L; [|exact P].
    destruct (negb (cert_eqb (in_cert s) (rg_cert g)) || negb (chain_eqb (in_chain s) (rg_chain g))) eqn:E; [exact P|].
    rewrite <- IH. apply orb_false_iff in E as [E _]. apply negb_false_iff, cert_eqb_eq in E.
    rewrite (last_stream_split _ _ L) at 1. rewrite !inner_stamps_app, !inner_stamps_one, cert_stamps_cons.
    cbn [in_cert in_backing]. rewrite map_app, <- !app_assoc. now rewrite E.
Qed.

Lemma inner_pending c gs : forall b e x b' rest, inner_send c b gs e = (x, b', rest) ->
  map (fun r => (r, c)) b ++ cert_stamps gs =
  match x with Got a => [(a, c)] | _ => [] end ++ map (fun r => (r, c)) b' ++ cert_stamps (fst rest).
Proof.
  induction gs as [|g r IH]; intros b e x b' rest E; (destruct b as [|a b]; cbn [inner_send] in E;
    [|injection E as <- <- <-; reflexivity]).
  - injection E as <- <- <-. now destruct e.
  - destruct (cert_eqb c (rg_cert g)) eqn:Ec; cbn [andb] in E; [rewrite chain_eqb_refl in E|].
    + apply IH in E. rewrite <- E. apply cert_eqb_eq in Ec. now rewrite cert_stamps_cons, <- Ec.
    + injection E as <- <- <-. reflexivity.
Qed.

Lemma replace_split {X} (l : list X) i x y : nth_error l i = Some x ->
  exists l1 l2, l = l1 ++ x :: l2 /\ replace_nth i l y = l1 ++ y :: l2.
Proof.
  revert l; induction i; intros [|z l]; cbn [nth_error replace_nth]; try easy.
  - intros E. injection E as ->. now exists [], l.
  - intros E. destruct (IHi l E) as (a & b & -> & H). exists (z :: a), b. now rewrite H.
Qed.

Theorem use_conserves (calls : list call) : forall m : merging A,
  Permutation (pending m) (fst (use m calls) ++ pending (snd (use m calls))).
Proof.
  induction calls as [|cl r IH]; intros m; [reflexivity|]. destruct cl as [|i]; cbn [use].
  - rewrite <- IH. unfold next_group. destruct m as [[gs e] streams]. cbn [mg_backing mg_streams fst snd].
    rewrite <- group_pending. reflexivity.
  - unfold next_receipt. destruct (nth_error (mg_streams m) i) as [s|] eqn:E; [|apply IH].
    destruct (inner_send (in_cert s) (in_backing s) (fst (mg_backing m)) (snd (mg_backing m))) as [[x b'] rest] eqn:F.
    cbn [fst snd]. rewrite <- app_assoc, <- IH. apply inner_pending in F.
    destruct (replace_split _ i s (Inner b' (in_cert s) (in_chain s)) E) as (l1 & l2 & E1 & E2).
    unfold pending. fold (@inner_stamps). cbn [mg_streams mg_backing]. rewrite E2, E1.
    change (s :: l2) with ([s] ++ l2). change (Inner b' (in_cert s) (in_chain s) :: l2) with ([Inner b' (in_cert s) (in_chain s)] ++ l2).
    rewrite !inner_stamps_app, !inner_stamps_one. cbn [in_cert in_backing].
    set (a1 := inner_stamps l1) in *. set (a2 := inner_stamps l2) in *. fold (cert_stamps (A := A)) in *.
    set (xs := match x with Got a => [(a, in_cert s)] | _ => [] end) in *.
    rewrite <- !app_assoc.
    transitivity (a1 ++ a2 ++ map (fun r0 => (r0, in_cert s)) (in_backing s) ++ cert_stamps (fst (mg_backing m))).
    { apply Permutation_app_head. rewrite !app_assoc. apply Permutation_app_tail. apply Permutation_app_comm. }
    rewrite F. transitivity (xs ++ a1 ++ a2 ++ map (fun r0 => (r0, in_cert s)) b' ++ cert_stamps (fst rest)).
    { rewrite (app_assoc a1 a2). rewrite (app_assoc a1 a2). rewrite !app_assoc. do 2 apply Permutation_app_tail.
      rewrite <- (app_assoc xs). apply Permutation_app_comm. }
    apply Permutation_app_head, Permutation_app_head. rewrite !app_assoc. apply Permutation_app_tail, Permutation_app_comm.
Qed.

End Merge.

(** All groups first, then the receipts of any of them *)
Theorem collected_groups {A} (s : stream (rgroup A)) fuel : (List.length (fst s) < fuel)%nat ->
  exists gs hs m, collect_groups fuel (MergingDEPStream s) = Some (hs, snd s, m)
    /\ stamps gs = stamps (fst s)
    /\ neighbours (fun x y => rg_cert x <> rg_cert y \/ rg_chain x <> rg_chain y) gs
    /\ List.length hs = List.length gs
    /\ forall i g, nth_error gs i = Some g ->
         nth_error hs i = Some (i, rg_cert g, rg_chain g)
         /\ exists m', drain_receipts (S (List.length (rg_recs g))) m i = Some (rg_recs g, None, m').
Proof.
  intros H. exists (joined (fst s)), (handed 0 (joined (fst s))), (Merging s_end (map inner_of (joined (fst s)))).
  split; [now apply collected_joined|]. split; [apply joined_stamps|]. split; [apply joined_neighbours|].
  assert (forall (gs : list (rgroup A)) k, List.length (handed k gs) = List.length gs
    /\ forall i g, nth_error gs i = Some g -> nth_error (handed k gs) i = Some ((k + i)%nat, rg_cert g, rg_chain g)) as L.
  { intros gs. unfold handed. induction gs as [|x gs IH]; intros k; [split; [reflexivity|intros []; discriminate]|].
    destruct (IH (S k)) as [I1 I2]. cbn [List.length seq combine map]. split; [cbn; now f_equal|]. intros [|i] g E; cbn [nth_error] in *.
    - injection E as <-. now rewrite Nat.add_0_r.
    - rewrite Nat.add_succ_r. now apply I2. }
  destruct (L (joined (fst s)) 0%nat) as [L1 L2]. split; [exact L1|]. intros i g E. split; [now apply L2|].
  eexists. apply drain_exhausted; [|lia]. rewrite nth_error_map, E. reflexivity.
Qed.
