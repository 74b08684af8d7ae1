(** C90: receipts of tests whose whole text is replaced. *)
From Verif Require Import PyBase World Codec Receipt SpecReceipt Json Pem KeyStore VerifyReceipt State DepParser Verify DepExport
  SpecDep SpecCluster SpecKeys SpecReading CashReg SpecCashReg Override SpecOverride OverrideText SpecOverrideText OverrideTextFacts
  ExampleWorld ExampleDep ExampleCashReg ExampleRunTest ExampleRemote ExampleOverride ExampleOverrideText.
Open Scope N_scope.
Open Scope py_scope.

(** Replaced texts change neither the register, nor the receipts, nor the exception that
    ends their creation. *)
Theorem C90_apart : forall w qs g,
  issue_all_over w g (map fst qs)
  = (fst (issue_texts w g qs), do l <- snd (issue_texts w g qs); Ok (map (fun m => (m_rec (fst m), snd m)) l)).
Proof. exact texts_strip. Qed.
Print Assumptions C90_apart.

Example C90_apart_case : exists recs,
  issue_all_over toy_world ex_g0 [(ex_q1, no_override); (ex_q3, no_override); (ex_q4, no_override)] = (fst ex_bad_run, Ok recs) /\ List.length recs = 3%nat.
Proof. eexists. split; [vm_compute; reflexivity|reflexivity]. Qed.

(** The DEP has the texts given, and otherwise those of the receipts, in their places. *)
Theorem C90_text : forall w g qs g' l cert chain dep, pem_ok w ->
  (forall c, cert = Some c \/ In c chain -> exists t, loadCert w t = Ok c) ->
  issue_texts w g qs = (g', Ok l) -> export_mangled w [RGroup l cert chain] = Ok dep ->
  exists recs texts, issue_all_over w g (map fst qs) = (g', Ok recs) /\ dep_is w dep [Group texts cert chain]
    /\ replaced (map snd qs) recs texts.
Proof. exact replaced_dep. Qed.
Print Assumptions C90_text.

Example C90_text_case : exists recs texts,
  issue_all_over toy_world ex_g0 [(ex_q1, no_override); (ex_q3, no_override); (ex_q4, no_override)] = (fst ex_bad_run, Ok recs)
  /\ dep_is toy_world ex_bad_dep [Group texts (Some ex_cert) []] /\ replaced [None; Some ex_bad_text; None] recs texts.
Proof. exact (C90_text toy_world ex_g0 _ _ _ (Some ex_cert) [] ex_bad_dep toy_pem_ok ex_cert_loads ex_bad_issued ex_bad_exported). Qed.

(** Receipts whose texts are not replaced, or only by the same, are exported as usual. *)
Theorem C90_own : forall w gs,
  Forall (fun g : rgroup (mangled * str) =>
    Forall (fun m => forall t, m_jws (fst m) = Some t -> toJWSString (m_rec (fst m)) (snd m) = Ok t) (rg_recs g)) gs ->
  export_mangled w gs = export w (map (fun g => RGroup (map (fun m => (m_rec (fst m), snd m)) (rg_recs g)) (rg_cert g) (rg_chain g)) gs, None) [].
Proof. exact own_export. Qed.
Print Assumptions C90_own.

Example C90_own_case : exists r t, toJWSString r (lit "R1") = Ok t
  /\ export_mangled toy_world [RGroup [(Mangled r None, lit "R1"); (Mangled r (Some t), lit "R1")] (Some ex_cert) []]
     = export toy_world ([RGroup [(r, lit "R1"); (r, lit "R1")] (Some ex_cert) []], None) [].
Proof.
  exists (fst (hd (ex_other_signature, []) ex_over_recs)), (hd [] ex_over_texts). assert (toJWSString (fst (hd (ex_other_signature, []) ex_over_recs)) (lit "R1") = Ok (hd [] ex_over_texts)) as E by (vm_compute; reflexivity).
  split; [exact E|]. apply (C90_own toy_world [RGroup [(Mangled _ None, _); (Mangled _ (Some _), _)] _ _]).
  constructor; [|constructor]. constructor; [intros t [=]|]. constructor; [|constructor]. intros t [= <-]. exact E.
Qed.

(** After any orderly receipts, a text that cannot be read is reported with the exception
    due for it, whatever the receipt was and whatever follows. *)
Theorem C90_caught : forall w ks b key id k size g0 qs q o t rest g' l c chain dep e, hash_ok w -> aes_ok w -> pem_ok w ->
  identifier id -> List.length k = 32%nat -> new_cashreg id None 0 k size = Ok g0 -> key = None \/ key = Some k ->
  orderly w size b (map (fun q => (q, fromCert c)) qs) ->
  issue_texts w g0 (map (fun q => (q, no_override, None)) qs ++ (q, o, Some t) :: rest) = (g', Ok l) ->
  (forall a, a = c \/ In a chain -> exists s, loadCert w s = Ok a) -> trusted w ks c chain ->
  export_mangled w [RGroup l (Some c) chain] = Ok dep ->
  (forall gs, dep_is w dep gs -> texts_encodable ks gs) -> text_fault w t e ->
  exists c', verifyDEP w dep ks key (new_cluster b) None = (c', Some e).
Proof. exact unreadable_caught. Qed.
Print Assumptions C90_caught.

Example C90_caught_case : exists c',
  verifyDEP toy_world ex_bad_dep ex_ks (Some ex_key) (new_cluster B_unique) None = (c', Some (MalformedReceipt (lit "a.b"))).
Proof. exact ex_bad_caught. Qed.

(** The register goes on from the receipt's own text, not from the one that replaced it. *)
Theorem C90_last : forall w g q o x g' m, issue_texts w g [(q, o, x)] = (g', Ok [m]) -> ov_header o = None -> ov_signature o = None ->
  exists jws, cr_last g' = Some jws /\ toJWSString (m_rec (fst m)) (snd m) = Ok jws.
Proof. exact replaced_last. Qed.
Print Assumptions C90_last.

Example C90_last_case : exists g' m jws, issue_texts toy_world ex_over_g [(ex_q3, no_override, Some ex_out_text)] = (g', Ok [m])
  /\ mangled_text (fst m) (snd m) = Ok ex_out_text /\ cr_last g' = Some jws /\ jws <> ex_out_text.
Proof.
  eexists _, _, _. split; [vm_compute; reflexivity|]. split; [reflexivity|]. split; [reflexivity|].
  intros E. apply (f_equal (fun s => str_eqb s ex_out_text)) in E. vm_compute in E. discriminate E.
Qed.

(** Hence, if a text is replaced by an equally valid one, the receipt after it is
    rejected although the DEP is accepted up to the replaced text. *)
Theorem C90_chain_refuted : exists w ks k g q1 q2 q3 broken cert t g' l dep2 dep c2 c,
  hash_ok w /\ aes_ok w /\ pem_ok w /\ new_cashreg (cr_id g) None 0 k 8 = Ok g
  /\ orderly w 8 B_unique (map (fun q => (q, fromCert cert)) [q1; with_sys q2 broken; q3])
  /\ issue_texts w g [(q1, no_override, None); (q2, no_override, Some t); (q3, no_override, None)] = (g', Ok l)
  /\ export_mangled w [RGroup (firstn 2 l) (Some cert) []] = Ok dep2 /\ export_mangled w [RGroup l (Some cert) []] = Ok dep
  /\ verifyDEP w dep2 ks (Some k) (new_cluster B_unique) None = (c2, None)
  /\ verifyDEP w dep ks (Some k) (new_cluster B_unique) None = (c, Some (ChainingError (q_id q3))).
Proof. exact replaced_outage. Qed.
Print Assumptions C90_chain_refuted.
