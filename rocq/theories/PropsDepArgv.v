(** The command lines of split.py, merge.py and convert.py. *)
From Coq Require Import Permutation Sorting.Sorted.
From Verif Require Import PyBase World Codec Receipt DepBase Json Pem KeyStore VerifyReceipt State DepParser Verify DepExport SpecReceipt SpecDep SpecCluster SpecDoc
  SpecChunks SpecKeys SpecMerge SpecExport StateArgv DepArgv SpecDepArgv IncTheorems DepArgvFacts ExampleWorld ExampleReceipts ExampleDep ExampleInc ExampleExport ExampleDepArgv.
Open Scope N_scope.

(** ** C86 Splitting and merging from the command line *)

(** split.py writes its files under the numbers 0, 1, ... in the directory, and nothing else. *)
Theorem C86_split w kind stdin args written out : split_program w kind stdin args = D_end false written out <->
  exists a dir z files, args = [a; dir] /\ number_arg w a = Ok z /\ (1 <= z)%Z /\ split_py w kind stdin (Z.to_nat z) = (files, None)
    /\ written = combine (parts dir (List.length files)) files /\ out = O_none.
Proof. exact (split_done w kind stdin args written out). Qed.
Print Assumptions C86_split.

(** The usage message of split.py is for wrong numbers of words and numbers less than one. *)
Theorem C86_split_usage w kind stdin args : split_program w kind stdin args = D_usage <->
  ~ (exists a dir, args = [a; dir]) \/ exists a dir z, args = [a; dir] /\ number_arg w a = Ok z /\ (z < 1)%Z.
Proof. exact (split_usage w kind stdin args). Qed.
Print Assumptions C86_split_usage.

(** merge.py merges the files in the order of the words. *)
Theorem C86_merge w k fs args written out : merge_program w k fs args = D_end false written out <->
  exists merge names docs d, merge_asks args merge names /\ Forall2 (fun n j => f_json fs n = Ok j) names docs
    /\ merge_py w merge k docs = Some (Ok d) /\ written = [] /\ out = O_json d.
Proof. exact (merge_done w k fs args written out). Qed.
Print Assumptions C86_merge.

(** Its usage message is for less than two files. *)
Theorem C86_merge_usage w k fs args : merge_program w k fs args = D_usage <-> ~ (exists merge names, merge_asks args merge names).
Proof. exact (merge_usage w k fs args). Qed.
Print Assumptions C86_merge_usage.

(** convert.py *)
Theorem C86_convert w k doc text args written out : convert_program w k doc text args = D_end false written out <->
  written = [] /\ (args = [lit "json2csv"] /\ (exists t, json2csv w k doc = Ok t /\ out = O_text t) \/ args = [lit "csv2json"] /\ exists d, csv2json w text = Ok d /\ out = O_json d).
Proof. exact (convert_done w k doc text args written out). Qed.
Print Assumptions C86_convert.

Theorem C86_convert_usage w k doc text args : convert_program w k doc text args = D_usage <-> args <> [lit "json2csv"] /\ args <> [lit "csv2json"].
Proof. exact (convert_usage w k doc text args). Qed.
Print Assumptions C86_convert_usage.

(** A DEP that was split into at least two files is merged again, with or without the option: the same
    receipts in the same order with the same certificates. The chains are the same as well with the option
    nomerge, or if receipts in a row with the same certificate have the same chain. *)
Theorem C86_roundtrip w kind k doc gs fs args written out fs' merge : pem_ok w -> kind <> P_certless -> plain_names doc -> dep_doc w doc gs -> canonical_texts gs ->
  split_program w kind doc args = D_end false written out -> written_to fs written fs' -> (2 <= List.length written)%nat ->
  exists dep gs', merge_program w k fs' (merge_words merge (map fst written)) = D_end false [] (O_json dep) /\ dep_doc w dep gs' /\ plain_names dep
    /\ with_certs gs' = with_certs gs
    /\ (merge = false \/ chains_agree (map snd (text_stamps gs)) -> text_stamps gs' = text_stamps gs)
    /\ (merge = true -> certless gs -> certless gs').
Proof. exact (split_merge w kind k doc gs fs args written out fs' merge). Qed.
Print Assumptions C86_roundtrip.

(** Which is accepted like the original. *)
Theorem C86_verdict w kind k doc gs fs args written out fs' merge dep ks key c idx before reg after c' : hash_ok w -> pem_ok w -> kind <> P_certless ->
  plain_names doc -> dep_doc w doc gs -> canonical_texts gs ->
  all_certs (occupied gs) /\ (merge = false \/ chains_agree (map snd (text_stamps gs))) \/ certless gs /\ merge = true ->
  split_program w kind doc args = D_end false written out -> written_to fs written fs' -> (2 <= List.length written)%nat ->
  merge_program w k fs' (merge_words merge (map fst written)) = D_end false [] (O_json dep) -> selects c idx before reg after ->
  verifyDEP w (load doc) ks key c idx = (c', None) <-> verifyDEP w (load dep) ks key c idx = (c', None).
Proof. exact (split_merge_verdict w kind k doc gs fs args written out fs' merge dep ks key c idx before reg after c'). Qed.
Print Assumptions C86_verdict.

Example C86_example : plain_names ex_dep /\ dep_doc toy_world ex_dep (ex_gs1 ++ ex_gs2) /\ canonical_texts (ex_gs1 ++ ex_gs2)
  /\ all_certs (occupied (ex_gs1 ++ ex_gs2)) /\ chains_agree (map snd (text_stamps (ex_gs1 ++ ex_gs2)))
  /\ split_program toy_world P_file ex_dep [lit "3"; ex_dir] = D_end false ex_parts O_none /\ written_to no_files ex_parts (put_files no_files ex_parts)
  /\ map fst ex_parts = [lit "parts/dep-export0.json"; lit "parts/dep-export1.json"; lit "parts/dep-export2.json"]
  /\ merge_program toy_world 2 (put_files no_files ex_parts) (map fst ex_parts) = D_end false [] (O_json ex_together)
  /\ verifyDEP toy_world (load ex_dep) ex_ks (Some ex_key) ex_start None = (ex_end, None).
Proof.
  split; [apply plainb_ok; vm_compute; reflexivity|]. split; [exact ex_dep_doc|]. split; [exact ex_canonical|]. split; [repeat constructor; discriminate|].
  split; [exact ex_chains|]. split; [exact (proj1 ex_parts_are)|]. split; [apply put_files_ok; rewrite (proj2 ex_parts_are); apply (parts_distinct ex_dir 3)|].
  split; [exact (proj2 ex_parts_are)|]. split; [exact ex_parts_merged|]. exact ex_accepted.
Qed.

(** If the names of the files are given in alphabetical order (merge.py parts/*.json), the result can be rejected. *)
Theorem C86_alphabetical_refuted : exists w doc ks key c c' args written fs fs' names k dep e, hash_ok w /\ pem_ok w
  /\ verifyDEP w (load doc) ks key c None = (c', None)
  /\ split_program w P_file doc args = D_end false written O_none /\ written_to fs written fs'
  /\ Permutation names (map fst written) /\ StronglySorted alphabetical names
  /\ merge_program w k fs' names = D_end false [] (O_json dep) /\ snd (verifyDEP w (load dep) ks key c None) = Some e.
Proof. exact alphabetical_breaks. Qed.
Print Assumptions C86_alphabetical_refuted.

(** Files of an earlier call stay in the directory: merging all that are there, even in the order of their
    numbers, the result can be rejected. *)
Theorem C86_leftover_refuted : exists w doc ks key c c' args written fs fs' dir k dep e, hash_ok w /\ pem_ok w
  /\ verifyDEP w (load doc) ks key c None = (c', None)
  /\ split_program w P_file doc args = D_end false written O_none /\ written_to fs written fs'
  /\ (forall n, (exists j, f_json fs' n = Ok j) <-> In n (parts dir 2))
  /\ merge_program w k fs' (parts dir 2) = D_end false [] (O_json dep) /\ snd (verifyDEP w (load dep) ks key c None) = Some e.
Proof. exact leftover_breaks. Qed.
Print Assumptions C86_leftover_refuted.
