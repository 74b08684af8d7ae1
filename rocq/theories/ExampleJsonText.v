(** Examples for JSON texts. *)
From Coq Require Import Floats.SpecFloat.
From Verif Require Import PyBase World Codec PyFloat Json State KeyStore DepBase DepParser DepExport SpecKeys SpecDoc SpecClean SpecState SpecStore
  ListFacts JsonText SpecJsonText JsonTextFacts ExampleWorld ExampleKeys ExampleDep ExampleClean.
Open Scope N_scope.

(** ["caf\u00e9 \ud83d\ude00", 1.25e2, -7, {"a": [], "a": null}] *)
Definition ex_json : json :=
  JList [JStr (lit "caf" ++ [233; 32; 0x1F600]); JFloat (float_of_decimal false 125 0); JInt (-7);
         JDict [(lit "a", JList []); (lit "a", JNull)]].
Definition ex_json_text : str :=
  lit " [" ++ [34] ++ lit "caf\u00e9 \ud83d\ude00" ++ [34; 44; 10] ++ lit "1.25e2,-7 , {" ++ [34] ++ lit "a" ++ [34]
  ++ lit " :[ ]," ++ [34] ++ lit "a" ++ [34] ++ lit ":null}]" ++ [13; 10].

Lemma ex_json_read : loads ex_json_text = Some ex_json.
Proof. vm_compute. reflexivity. Qed.

(** A printer for one number *)
Definition ex_repr (x : float) : str := lit "125.0".
Lemma ex_writable : writable ex_repr ex_json.
Proof.
  assert (K : forall s, forallb (fun c => (c <? 0x110000) && negb (high c)) s = true -> no_pairs s).
  { intros s H. rewrite forallb_forall in H. split.
    - apply Forall_forall. intros c I. apply H in I. apply andb_prop in I. destruct I as [I _]. now apply N.ltb_lt.
    - intros a u v b -> [U _]. specialize (H u). rewrite (proj2 (high_iff u) U), andb_false_r in H.
      discriminate H. apply in_or_app. right. now left. }
  constructor. constructor; [constructor; apply K; reflexivity|]. constructor.
  { constructor. intros _. exists false, (lit "125"), (lit "0"), (lit ".0"), 0%Z, [], 1250.
    split; [right; exists 49, (lit "25"); split; [reflexivity|discriminate]|].
    split; [exists 125; apply numeral_dec; split; [discriminate|split; [repeat constructor|reflexivity]]|].
    split; [right; split; [exists 0; apply numeral_dec; split; [discriminate|split; [repeat constructor|reflexivity]]|reflexivity]|].
    split; [left; split; reflexivity|]. split; [left; discriminate|]. split; [reflexivity|].
    split; [apply numeral_dec; split; [discriminate|split; [repeat constructor|reflexivity]]|].
    apply decimal_iff. vm_compute. reflexivity. }
  constructor; [constructor|]. constructor; [|constructor]. constructor.
  constructor; [split; [apply K; reflexivity|constructor; constructor]|].
  constructor; [split; [apply K; reflexivity|constructor]|constructor].
Qed.

Lemma ex_dumps : dumps ex_repr false ex_json
  = lit "[" ++ [34] ++ lit "caf\u00e9 \ud83d\ude00" ++ [34] ++ lit ", 125.0, -7, {" ++ [34] ++ lit "a" ++ [34]
    ++ lit ": [], " ++ [34] ++ lit "a" ++ [34] ++ lit ": null}]".
Proof. vm_compute. reflexivity. Qed.

(** Documents with ASCII texts only *)
Fixpoint texts_ascii (j : json) : bool :=
  match j with
  | JStr s => forallb (fun c => c <? 128) s
  | JList l => forallb texts_ascii l
  | JDict d => forallb (fun kv => texts_ascii (snd kv)) d
  | _ => true
  end.
Lemma texts_ascii_ok j : texts_ascii j = true -> texts_encode j.
Proof.
  intros H s T. revert H. induction T as [s|l x s I T IH|d k x s I T IH]; cbn [texts_ascii]; intros H.
  - now apply ascii_text_encodes.
  - apply IH. rewrite forallb_forall in H. now apply H.
  - apply IH. rewrite forallb_forall in H. exact (H _ I).
Qed.

Lemma ex_end_clean : wf_used (c_used ex_end) /\ c_regs ex_end <> [] /\ texts_encode (cluster_to_json ex_end).
Proof.
  split; [|split; [vm_compute; discriminate|apply texts_ascii_ok; vm_compute; reflexivity]].
  vm_compute. repeat constructor; vm_compute; intuition discriminate.
Qed.

Lemma ex_store_clean : Forall from_pem ex_ops2 /\ store_run toy_world ex_ops2 <> []
  /\ (forall i kt, In (i, kt) (store_run toy_world ex_ops2) -> exists b, utf8_encode i = Ok b)
  /\ (forall k, Some (b64encode ex_key) = Some k -> exists b, utf8_encode k = Ok b).
Proof.
  split; [repeat constructor|]. split; [vm_compute; discriminate|]. split.
  - assert (H : forallb (fun e => forallb (fun c => c <? 128) (fst e)) (store_run toy_world ex_ops2) = true) by (vm_compute; reflexivity).
    intros i kt I. apply ascii_text_encodes. rewrite forallb_forall in H. exact (H _ I).
  - intros k E. apply Some_inj in E. subst k. apply ascii_text_encodes. vm_compute. reflexivity.
Qed.

(** A DEP that is read, written and read again *)
Definition ex_groups : stream (rgroup rtuple) := receiptGroupAdapter toy_world (parse_dict toy_world 1 (load ex_dep) 0).
Lemma ex_export_clean : exists dep, export toy_world ex_groups [] = Ok dep /\ texts_encode dep /\ dep <> JDict [(k_bg, JList [])].
Proof.
  destruct (export toy_world ex_groups []) as [dep|e] eqn:E; [|exfalso; vm_compute in E; discriminate E].
  exists dep. split; [reflexivity|].
  assert (H : match export toy_world ex_groups [] with Ok d => texts_ascii d && negb (match d with JDict [(_, JList [])] => true | _ => false end) | Err _ => false end = true)
    by (vm_compute; reflexivity).
  rewrite E in H. apply andb_prop in H. destruct H as [H1 H2]. split; [now apply texts_ascii_ok|]. intros ->. discriminate H2.
Qed.

Lemma ex_full : parse_full toy_world 1 (0xFEFF :: dumps (fun _ => []) true ex_dep) 0 = parse_dict toy_world 1 (load ex_dep) 0
  /\ List.length (fst (parse_dict toy_world 1 (load ex_dep) 0)) = 3%nat
  /\ parse_full toy_world 1 (lit "{") 0 = ([], Some DEPParseError).
Proof. split; [vm_compute; reflexivity|]. split; vm_compute; reflexivity. Qed.
