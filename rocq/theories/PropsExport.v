(** Properties of DEP streams, exporters and of the scripts that split and merge
    DEPs. *)
From Coq Require Import Lia Permutation.
From Verif Require Import PyBase World Codec Receipt DepBase Json Pem KeyStore VerifyReceipt State DepParser Verify DepExport SpecReceipt SpecDep SpecCluster SpecDoc
  SpecChunks SpecKeys SpecMerge SpecExport MergeFacts ExportFacts SplitFacts ExampleWorld ExampleReceipts ExampleDep ExampleInc ExampleExport.
Open Scope N_scope.
Open Scope py_scope.

(** ** C42 Merging streams of groups *)

(** Read group by group, as the exporters do *)
Theorem C42_merge {A} (s : stream (rgroup A)) : exists out,
  read_in_turn s = Some (out, snd s)
  /\ cert_stamps out = cert_stamps (fst s)
  /\ neighbours (fun x y => rg_cert x <> rg_cert y) out
  /\ (neighbours (fun x y => rg_cert x = rg_cert y -> rg_chain x = rg_chain y) (fst s) -> stamps out = stamps (fst s)).
Proof.
  exact (ex_intro _ (merged (fst s)) (conj (read_merged s) (conj (merged_certs (fst s)) (conj (merged_neighbours (fst s)) (merged_stamps (fst s)))))).
Qed.
Print Assumptions C42_merge.

Example C42_merge_example : read_in_turn ex_stream =
  Some ([RGroup [1; 2; 3] (Some [90]) []; RGroup [4] (Some [91]) [[90]]; RGroup [5] (Some [90]) [[91]]], None).
Proof. exact ex_merge. Qed.

(** Two adjacent groups with the same certificate but different chains: the
    second chain is lost. *)
Theorem C42_chain_refuted : exists (s : stream (rgroup N)) out, read_in_turn s = Some (out, snd s) /\ stamps out <> stamps (fst s).
Proof. exact chains_lost. Qed.
Print Assumptions C42_chain_refuted.

(** All groups taken first, then the receipts read in any order of the groups:
    chains are kept as well. *)
Theorem C42_collected {A} (s : stream (rgroup A)) fuel : (List.length (fst s) < fuel)%nat ->
  exists gs hs m, collect_groups fuel (MergingDEPStream s) = Some (hs, snd s, m)
    /\ stamps gs = stamps (fst s)
    /\ neighbours (fun x y => rg_cert x <> rg_cert y \/ rg_chain x <> rg_chain y) gs
    /\ List.length hs = List.length gs
    /\ forall i g, nth_error gs i = Some g ->
         nth_error hs i = Some (i, rg_cert g, rg_chain g)
         /\ exists m', drain_receipts (S (List.length (rg_recs g))) m i = Some (rg_recs g, None, m').
Proof. exact (collected_groups s fuel). Qed.
Print Assumptions C42_collected.

Example C42_collected_example : exists m, collect_groups 5 (MergingDEPStream ex_chains) = Some ([(0%nat, Some [90], [[91]]); (1%nat, Some [90], [])], None, m).
Proof. eexists. vm_compute. reflexivity. Qed.

(** However the stream is used, no receipt is lost or duplicated, and each is
    delivered with its certificate. *)
Theorem C42_any_use {A} (calls : list call) (m : merging A) :
  Permutation (pending m) (fst (use m calls) ++ pending (snd (use m calls))).
Proof. exact (use_conserves calls m). Qed.
Print Assumptions C42_any_use.

Example C42_any_use_example :
  fst (use (MergingDEPStream ex_stream) [NextGroup; NextReceipt 0; NextGroup; NextReceipt 0; NextReceipt 1]) = [(1, Some [90]); (2, Some [90]); (4, Some [91])].
Proof. vm_compute. reflexivity. Qed.

(** But the order may change. *)
Theorem C42_order_refuted : exists (s : stream (rgroup N)) calls out,
  fst (use (MergingDEPStream s) calls) = out /\ pending (snd (use (MergingDEPStream s) calls)) = [] /\ out <> cert_stamps (fst s).
Proof. exact order_lost. Qed.
Print Assumptions C42_order_refuted.

(** ** C43 Exporting, splitting and merging *)

(** An exported DEP is parsed to the same groups; with chunks, to the same
    receipts with the same certificates and chains. *)
Theorem C43_export w gs extra : pem_ok w -> Forall (parsed_group w) gs -> extra_ok extra -> stamps gs <> [] ->
  exists dep, export w (gs, None) extra = Ok dep
    /\ receiptGroupAdapter w (parse_inc w P_file dep 0) = (filter (fun g => match rg_recs g with [] => false | _ => true end) gs, None)
    /\ (forall n, exists gs', receiptGroupAdapter w (parse_inc w P_file dep n) = (gs', None) /\ stamps gs' = stamps gs)
    /\ (Forall (fun g => rg_cert g <> None) gs ->
        forall n, exists gs', receiptGroupAdapter w (parse_inc w P_stream dep n) = (gs', None) /\ stamps gs' = stamps gs)
    /\ (forall nparts n, exists gs', receiptGroupAdapter w (parse_dict w nparts (load dep) n) = (gs', None) /\ stamps gs' = stamps gs).
Proof. exact (export_parse w gs extra). Qed.
Print Assumptions C43_export.

Definition ex_rgroup : rgroup rtuple := RGroup [(ex_t2_receipt, lit "R1")] (Some ex_cert) [].
Lemma ex_parsed : Forall (parsed_group toy_world) [ex_rgroup].
Proof.
  constructor; [|constructor]. split.
  - constructor; [|constructor]. exists ex_t2. vm_compute. reflexivity.
  - intros c [E|[]]. injection E as <-. exists (addPEMCertHeaders ex_cert_text). vm_compute. reflexivity.
Qed.
Example C43_export_example : pem_ok toy_world /\ Forall (parsed_group toy_world) [ex_rgroup] /\ extra_ok [(lit "Kommentar", JNull)] /\ stamps [ex_rgroup] <> [].
Proof.
  split; [exact toy_pem_ok|]. split; [exact ex_parsed|]. split; [|discriminate].
  constructor; [|constructor]. split; [discriminate|]. split; [discriminate|]. cbn. intuition discriminate.
Qed.

(** The default argument of DEPExporter.export is the builtin function [id]: what
    it produces cannot be parsed. *)
Theorem C43_default_refuted w identity nparts n : (1 <= nparts)%nat ->
  exists e, parse_dict w nparts (load (export_default identity [])) n = ([], Some e).
Proof. exact (default_useless w identity nparts n). Qed.
Print Assumptions C43_default_refuted.

(** Verifying the files written by split.py one after the other is the same as
    verifying the original DEP. *)
Theorem C43_split w kind doc n files gs ks key c idx before reg after c' : hash_ok w -> pem_ok w -> kind <> P_certless ->
  plain_names doc -> dep_doc w doc gs -> canonical_texts gs -> certs_or_one gs ->
  split_py w kind doc n = (files, None) -> selects c idx before reg after ->
  verifyDEP w (load doc) ks key c idx = (c', None) <->
  accepted_in_turn w ks key (same_register before) (map load files) c idx c'.
Proof. exact (split_verify w kind doc n files gs ks key c idx before reg after c'). Qed.
Print Assumptions C43_split.

(** The files: the receipts in order, with their certificates and chains; each
    file but the last has [n] of them. *)
Theorem C43_split_contents w kind doc n files gs : pem_ok w -> kind <> P_certless -> plain_names doc -> dep_doc w doc gs -> (1 <= n)%nat ->
  split_py w kind doc n = (files, None) ->
  exists gss, Forall2 (dep_doc w) files gss /\ Forall plain_names files
    /\ Forall2 (fun x y => exists r t, fromJWSString w (fst x) = Ok (r, t) /\ toJWSString r t = Ok (fst y) /\ snd x = snd y)
         (text_stamps gs) (flat_map text_stamps gss)
    /\ (forall l x, gss = l ++ [x] -> Forall (fun y => List.length (text_stamps y) = n) l /\ (0 < List.length (text_stamps x) <= n)%nat).
Proof. exact (split_contents w kind doc n files gs). Qed.
Print Assumptions C43_split_contents.

Theorem C43_split_total w doc n gs : pem_ok w -> plain_names doc -> dep_doc w doc gs -> text_stamps gs <> [] -> texts_read w gs ->
  exists files, split_py w P_file doc n = (files, None).
Proof. exact (split_exists w doc n gs). Qed.
Print Assumptions C43_split_total.

Example C43_split_example : plain_names ex_dep /\ dep_doc toy_world ex_dep (ex_gs1 ++ ex_gs2) /\ canonical_texts (ex_gs1 ++ ex_gs2)
  /\ certs_or_one (ex_gs1 ++ ex_gs2) /\ split_py toy_world P_file ex_dep 3 = (ex_files, None) /\ List.length ex_files = 3%nat
  /\ selects ex_start None [] new_register [] /\ verifyDEP toy_world (load ex_dep) ex_ks (Some ex_key) ex_start None = (ex_end, None).
Proof.
  split; [apply plainb_ok; vm_compute; reflexivity|]. split; [exact ex_dep_doc|]. split; [exact ex_canonical|].
  split; [left; repeat constructor; discriminate|]. split; [exact (proj1 ex_split)|]. split; [exact (proj2 ex_split)|].
  split; [|exact ex_accepted]. refine (sel_new ex_start None _ _); [now left|now left].
Qed.

(** Without the canonical encoding: split.py writes the receipts in canonical
    encoding, to which their successors are not chained. *)
Theorem C43_split_refuted : exists w doc n files ks key c c' e, hash_ok w /\ pem_ok w /\ plain_names doc /\ split_py w P_file doc n = (files, None)
  /\ verifyDEP w (load doc) ks key c None = (c', None)
  /\ exists f, files = [f] /\ snd (verifyDEP w (load f) ks key c None) = Some e.
Proof. exact split_breaks. Qed.
Print Assumptions C43_split_refuted.

(** Verifying what merge.py writes *)
Theorem C43_merge w merge n docs dep gss ks key c idx before reg after c' : hash_ok w -> pem_ok w -> docs <> [] ->
  Forall plain_names docs -> Forall2 (dep_doc w) docs gss -> Forall canonical_texts gss ->
  Forall (fun gs => all_certs (occupied gs)) gss \/ merge = true /\ Forall certless gss ->
  merge_py w merge n docs = Some (Ok dep) -> selects c idx before reg after ->
  (accepted_in_turn w ks key (same_register before) (map load docs) c idx c' -> verifyDEP w (load dep) ks key c idx = (c', None))
  /\ (merge = false \/ chains_agree (map snd (text_stamps (List.concat gss))) \/ Forall certless gss ->
      verifyDEP w (load dep) ks key c idx = (c', None) -> accepted_in_turn w ks key (same_register before) (map load docs) c idx c').
Proof. exact (merge_verify w merge n docs dep gss ks key c idx before reg after c'). Qed.
Print Assumptions C43_merge.

Theorem C43_merge_total w merge n docs gss : pem_ok w -> Forall plain_names docs -> Forall2 (dep_doc w) docs gss ->
  Forall (fun gs => text_stamps gs <> []) gss -> Forall (texts_read w) gss ->
  exists dep, merge_py w merge n docs = Some (Ok dep).
Proof. exact (merge_exists w merge n docs gss). Qed.
Print Assumptions C43_merge_total.

Example C43_merge_example : Forall plain_names [ex_dep1; ex_dep2] /\ Forall2 (dep_doc toy_world) [ex_dep1; ex_dep2] [ex_gs1; ex_gs2]
  /\ Forall canonical_texts [ex_gs1; ex_gs2] /\ Forall (fun gs => all_certs (occupied gs)) [ex_gs1; ex_gs2]
  /\ merge_py toy_world true 2 [ex_dep1; ex_dep2] = Some (Ok ex_merged)
  /\ chains_agree (map snd (text_stamps (List.concat [ex_gs1; ex_gs2]))).
Proof.
  split; [constructor; [apply plainb_ok; vm_compute; reflexivity|constructor; [apply plainb_ok; vm_compute; reflexivity|constructor]]|].
  split; [constructor; [exact ex_dep1_doc|constructor; [exact ex_dep2_doc|constructor]]|].
  split; [constructor; [exact ex_canonical1|constructor; [exact ex_canonical2|constructor]]|].
  split; [repeat constructor; discriminate|]. split; [exact ex_merging|].
  intros l1 x y l2 E _. assert (forall z, In z (map snd (text_stamps (List.concat [ex_gs1; ex_gs2]))) -> snd z = []) as H.
  { intros z Hz. cbn in Hz. repeat destruct Hz as [<-|Hz]; try reflexivity. destruct Hz. }
  rewrite (H x), (H y); [reflexivity| |]; rewrite E; apply in_or_app; right; cbn; auto.
Qed.

(** If chains differ: a DEP that is rejected is accepted after merging. *)
Theorem C43_merge_refuted : exists w n docs dep ks key c c' e, hash_ok w /\ pem_ok w /\ Forall plain_names docs
  /\ merge_py w true n docs = Some (Ok dep)
  /\ verifyDEP w (load dep) ks key c None = (c', None)
  /\ exists d1 d2 c1, docs = [d1; d2] /\ verifyDEP w (load d1) ks key c None = (c1, None) /\ snd (verifyDEP w (load d2) ks key c1 (Some 0%Z)) = Some e.
Proof. exact merge_lenient. Qed.
Print Assumptions C43_merge_refuted.
