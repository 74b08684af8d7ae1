(** Which exceptions reject a DEP. *)
From Verif Require Import PyBase World Codec Receipt Json KeyStore State Verify SpecDep DepParser Cli SpecDoc SpecClean CleanFacts CleanParFacts
  ExampleWorld ExampleReceipts ExampleDep ExampleClean ExamplePar ExampleCleanPar.
Open Scope N_scope.

(** ** C50 Rejection is clean *)

(** If the receipts are texts without lone surrogates, verifyDEP rejects with an exception of
    the library, with two kinds of exceptions to this: amounts too large, if there is
    a key, and IDs that cannot be compared, if the backend compares them. *)
Theorem C50_clean w dep ks key c idx c' e : receipts_are_texts dep -> texts_encode dep -> state_encodes c ->
  verifyDEP w dep ks key c idx = (c', Some e) ->
  library_exn e
  \/ ((e = PyOverflowError \/ e = PyValueError) /\ key <> None /\ amounts_fail w dep e)
  \/ ((e = PyTypeError \/ e = PyValueError) /\ exists a b, c_used c = Natural a b).
Proof. exact (verifyDEP_raises w dep ks key c idx c' e). Qed.
Print Assumptions C50_clean.

(** Without key and with the usual backend nothing else happens. *)
Theorem C50_set w dep ks c idx ids c' e : receipts_are_texts dep -> texts_encode dep -> state_encodes c ->
  c_used c = Unique ids -> verifyDEP w dep ks None c idx = (c', Some e) -> library_exn e.
Proof. exact (verifyDEP_clean w dep ks c idx ids c' e). Qed.
Print Assumptions C50_set.

(** Nor with key, if no amount has more than 15 characters. *)
Theorem C50_short w dep ks key c idx ids c' e : receipts_are_texts dep -> texts_encode dep -> state_encodes c ->
  c_used c = Unique ids -> short_amounts w dep -> verifyDEP w dep ks key c idx = (c', Some e) -> library_exn e.
Proof. exact (verifyDEP_short w dep ks key c idx ids c' e). Qed.
Print Assumptions C50_short.

Example C50_short_example : c_used ex_start = Unique [] /\ short_amounts toy_world ex_dep2.
Proof. exact (conj eq_refl ex_short). Qed.

Example C50_example : receipts_are_texts ex_dep2 /\ texts_encode ex_dep2 /\ state_encodes ex_start
  /\ exists c', verifyDEP toy_world ex_dep2 ex_ks (Some ex_key) ex_start None = (c', Some (InvalidChainingOnInitial (lit "5"))).
Proof. exact ex_rejected. Qed.

(** Amounts of 310 digits are legal, but infinite: verification with key ends with
    an OverflowError or ValueError of Python. *)
Theorem C50_amounts_refuted : exists w huge nan ks key c, receipts_are_texts huge /\ texts_encode huge /\ receipts_are_texts nan /\ texts_encode nan
  /\ snd (verifyDEP w huge ks None c None) = None
  /\ snd (verifyDEP w huge ks (Some key) c None) = Some PyOverflowError
  /\ snd (verifyDEP w nan ks (Some key) c None) = Some PyValueError.
Proof. exact huge_amounts. Qed.
Print Assumptions C50_amounts_refuted.

(** The same holds of parallel verification with either parser, and the program
    verify.py. The parser of files has two exceptions of its own (see C28). *)
Theorem C50_parallel w sch nparts dep n ks key c idx c' e : sch_pool sch <> Some 0%nat ->
  receipts_are_texts dep -> texts_encode dep -> state_encodes c ->
  verifyParsedDEP w sch (parse_dict w nparts dep n) ks key c idx = (c', Some e) ->
  library_exn e
  \/ ((e = PyOverflowError \/ e = PyValueError) /\ key <> None /\ amounts_fail w dep e)
  \/ ((e = PyTypeError \/ e = PyValueError) /\ exists a b, c_used c = Natural a b).
Proof. exact (verifyParsedDEP_raises w sch nparts dep n ks key c idx c' e). Qed.
Print Assumptions C50_parallel.

Theorem C50_incremental w sch kind doc n ks key c idx c' e : sch_pool sch <> Some 0%nat ->
  texts_encode doc -> state_encodes c ->
  verifyParsedDEP w sch (parse_inc w kind doc n) ks key c idx = (c', Some e) ->
  library_exn e
  \/ (kind = P_file /\ n <> 0%nat /\ (e = PyIndexError \/ e = PyTypeError))
  \/ ((e = PyOverflowError \/ e = PyValueError) /\ key <> None /\ amounts_fail w doc e)
  \/ ((e = PyTypeError \/ e = PyValueError) /\ exists a b, c_used c = Natural a b).
Proof. exact (verify_file_raises w sch kind doc n ks key c idx c' e). Qed.
Print Assumptions C50_incremental.

Example C50_parallel_example :
  sch_pool ex_pool2 <> Some 0%nat
  /\ snd (verifyParsedDEP toy_world ex_pool2 (parse_dict toy_world 2 ex_dep2 0) ex_ks (Some ex_key) ex_start None) = Some (InvalidChainingOnInitial (lit "5"))
  /\ snd (verifyParsedDEP toy_world ex_pool2 (parse_inc toy_world P_file ex_dep2 1) ex_ks (Some ex_key) ex_start None) = Some (InvalidChainingOnInitial (lit "5")).
Proof. exact ex_rejected_par. Qed.

Theorem C50_program w pick a doc ks key c idx ids c' e : receipts_are_texts (load doc) -> texts_encode doc -> state_encodes c ->
  c_used c = Unique ids -> (key = None \/ short_amounts w doc) ->
  verify_mode w pick a doc ks key c idx = (c', Some e) ->
  library_exn e \/ (va_chunksize a <> 0%nat /\ (e = PyIndexError \/ e = PyTypeError)).
Proof. exact (verify_mode_raises w pick a doc ks key c idx ids c' e). Qed.
Print Assumptions C50_program.

Example C50_program_example : receipts_are_texts (load ex_dep2) /\ texts_encode ex_dep2 /\ state_encodes ex_start /\ c_used ex_start = Unique []
  /\ short_amounts toy_world ex_dep2
  /\ exists c', verify_mode toy_world (fun _ => 0%nat) (VerifyArgs false A_none 2 1) ex_dep2 ex_ks (Some ex_key) ex_start None
       = (c', Some (InvalidChainingOnInitial (lit "5"))).
Proof. exact ex_mode. Qed.

(** The remaining case occurs: the program reports a missing certificate as such
    without chunk size only. *)
Theorem C50_program_refuted : exists w doc ks c, receipts_are_texts (load doc) /\ texts_encode doc /\ state_encodes c /\ c_used c = Unique []
  /\ snd (verify_mode w (fun _ => 0%nat) (VerifyArgs false A_none 1 0) doc ks None c None) = Some MissingDEPElement
  /\ snd (verify_mode w (fun _ => 0%nat) (VerifyArgs false A_none 1 1) doc ks None c None) = Some PyIndexError.
Proof. exact lacking_mode. Qed.
Print Assumptions C50_program_refuted.
