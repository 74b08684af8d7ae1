(** The command line of key_store.py. *)
From Coq Require Import Lia ZifyClasses ZifyN ZifyNat ZifyBool.
From Verif Require Import PyBase World Codec Json Pem KeyStore DepExport KeyStoreCli ListFacts CodecFacts CodecFacts2 IntFacts SpecKeys KeyFacts SpecKeyStoreCli KeyStoreCliFacts
  StateArgv SpecStateArgv KeyArgv SpecKeyArgv.
Open Scope N_scope.
Open Scope py_scope.

Local Ltac known := repeat match goal with
  | |- context [str_eqb (lit ?a) (lit ?b)] => let v := eval vm_compute in (str_eqb (lit a) (lit b)) in change (str_eqb (lit a) (lit b)) with v; cbv iota
  end.
Local Ltac word E := match goal with
  | H : (if str_eqb ?c ?l then _ else _) = _ |- _ => destruct (str_eqb c l) eqn:E; [apply str_eqb_eq in E; subst c|clear E]
  end.

Theorem store_argv_spec fs stdin words cmd : store_argv fs stdin words = Some (Ok cmd) <-> store_asks fs stdin words cmd.
Proof.
  split.
  - intros H. destruct words as [|c [|a [|i [|]]]]; cbn [store_argv] in H; try discriminate.
    + word E; [injection H as <-; constructor|]. word E; [injection H as <-; constructor|]. word E; [injection H as <-; constructor|]. word E; [injection H as <-; constructor|].
      word E; [injection H as <-; constructor|]. word E; [injection H as <-; constructor|]. word E; [injection H as <-; constructor|]. discriminate.
    + word E; [injection H as H; apply bind_Ok in H as (t & T & H); apply Ok_inj in H; subst; now constructor|]. word E; [injection H as <-; constructor|]. discriminate.
    + word E; [injection H as H; apply bind_Ok in H as (t & T & H); apply Ok_inj in H; subst; now constructor|]. discriminate.
  - intros H. destruct H as [| |f t T|f t i T| | | | | |]; cbn [store_argv]; known; try reflexivity; rewrite T; reflexivity.
Qed.

Theorem store_shape fs stdin args : (exists file words, args = file :: words /\ store_argv fs stdin words <> None) <-> store_shaped args.
Proof.
  split.
  - intros (file & words & -> & H). destruct words as [|c rest]; [now elim H|]. exists file, c, rest. split; [reflexivity|].
    Local Ltac word' E := match goal with
      | H : (if str_eqb ?c ?l then _ else _) <> _ |- _ => destruct (str_eqb c l) eqn:E; [apply str_eqb_eq in E; subst c; cbn; tauto|clear E]
      end.
    destruct rest as [|a [|i [|]]]; cbn [store_argv] in H; try (now elim H).
    + do 7 word' E. now elim H.
    + do 2 word' E. now elim H.
    + word' E. now elim H.
  - intros (file & c & rest & -> & I). exists file, (c :: rest). split; [reflexivity|].
    unfold store_arities in I. cbn [In] in I. repeat match goal with H : _ \/ _ |- _ => destruct H as [H|H] end; try contradiction; injection I as <- L;
    repeat match type of L with _ = List.length ?r => destruct r as [|? ?]; cbn [List.length] in L; try discriminate L; try injection L as L end;
    cbn [store_argv]; known; discriminate.
Qed.

Theorem store_usage w fs stdin args : store_program w fs stdin args = P_usage <-> ~ store_shaped args.
Proof.
  rewrite <- (store_shape fs stdin). unfold store_program. destruct args as [|file words].
  - split; [intros _ (f & ws & E & _); discriminate|reflexivity].
  - destruct (store_argv fs stdin words) as [c|] eqn:E.
    + split; [|intros H; exfalso; apply H; exists file, words; rewrite E; split; [reflexivity|discriminate]].
      destruct (do cmd <- c; _) as [[j out]|]; discriminate.
    + split; [|reflexivity]. intros _ (f & ws & X & H). injection X as <- <-. now apply H.
Qed.

Theorem store_done w fs stdin args written out : store_program w fs stdin args = P_done written out <->
  exists file words cmd j j', args = file :: words /\ store_asks fs stdin words cmd
    /\ (cmd = K_create \/ (exists t, cmd = K_fromIni t) \/ f_json fs file = Ok j)
    /\ key_store_py w cmd j = Ok (j', out) /\ written = option_map (fun x => (file, x)) j'.
Proof.
  split.
  - intros H. destruct args as [|file words]; [discriminate|]. cbn [store_program] in H. destruct (store_argv fs stdin words) as [[cmd|e]|] eqn:E; try discriminate.
    apply store_argv_spec in E. cbn [bind] in H. destruct (if anew cmd then Ok JNull else f_json fs file) as [j|] eqn:J; [|discriminate]. cbn [bind] in H.
    destruct (key_store_py w cmd j) as [[j' o]|] eqn:P; [|discriminate]. injection H as <- <-. exists file, words, cmd, j, j'. split; [reflexivity|]. split; [exact E|].
    split; [destruct cmd; cbn [anew] in J; eauto|]. now split.
  - intros (file & words & cmd & j & j' & -> & A & J & P & ->). apply store_argv_spec in A. cbn [store_program]. rewrite A. cbn [bind].
    assert (exists j0, (if anew cmd then Ok JNull else f_json fs file) = Ok j0 /\ key_store_py w cmd j0 = Ok (j', out)) as (j0 & -> & P0).
    { destruct J as [->|[(t & ->)|J]]; [exists JNull; split; [reflexivity|exact P]|exists JNull; split; [reflexivity|exact P]|].
      destruct (anew cmd) eqn:F; [|eauto]. exists JNull. split; [reflexivity|]. destruct cmd; try discriminate F; exact P. }
    cbn [bind]. rewrite P0. reflexivity.
Qed.

Theorem store_prints w fs stdin file word written out : printing word -> store_program w fs stdin [file; word] = P_done written out -> written = None.
Proof.
  intros Pr H. apply store_done in H as (f & words & cmd & j & j' & E & A & _ & P & ->). injection E as <- <-.
  assert (j' = None) as ->; [|reflexivity].
  destruct Pr as [->|[->| ->]]; inversion A; subst; cbn [key_store_py] in P; apply bind_Ok in P as (ks & _ & P); apply bind_Ok in P as (key & _ & P); apply Ok_inj in P; now injection P as <- _.
Qed.

(** A written store can be read, whatever the signs of the serial numbers. *)
Lemma id_read_any w z : exists ids, strSerialToKeyIds w (fmt_x z) = Ok (fmt_x (Z.abs z) :: ids).
Proof.
  destruct (Z.ltb_spec z 0) as [L|L].
  - assert (fmt_x z = c_dash :: fmt_x (Z.abs z)) as ->.
    { unfold fmt_x, fmt_base. replace (z <? 0)%Z with true by lia. replace (Z.abs z <? 0)%Z with false by lia. f_equal. f_equal. lia. }
    cbn [strSerialToKeyIds]. change (c_dash =? c_dash) with true. cbv iota zeta. unfold fmt_x at 1. rewrite (py_int_fmt w 16) by lia. cbn [app]. eauto.
  - destruct (key_id_read w z L) as (ids & E). exists ids. rewrite E. now replace (Z.abs z) with z by lia.
Qed.
Lemma written_entry w ks i kt : pem_ok w -> read_ok w (i, kt) -> exists ks', read_entry w ks i (entry_to_json w i kt) = Ok ks'.
Proof.
  intros P R. unfold read_ok in R. cbn [fst snd] in R. unfold read_entry, entry_to_json. destruct (kt_cert kt) as [c|].
  - destruct R as ((z & ->) & E & (t & T)). cbn [dict_get]. change (str_eqb k_id k_id) with true. change (str_eqb k_id k_type) with false. change (str_eqb k_id k_pem) with false.
    change (str_eqb k_type k_type) with true. change (str_eqb k_type k_pem) with false. change (str_eqb k_pem k_pem) with true. cbv iota. rewrite str_eqb_refl.
    change (str_eqb v_cert_type v_cert_type) with true. cbv iota. destruct (id_read_any w z) as (ids & ->). cbn [bind].
    rewrite (reload_cert w c t P T). cbn [bind]. eauto.
  - cbn [dict_get]. change (str_eqb k_id k_id) with true. change (str_eqb k_id k_type) with false. change (str_eqb k_id k_pem) with false.
    change (str_eqb k_type k_type) with true. change (str_eqb k_type k_pem) with false. change (str_eqb k_pem k_pem) with true. cbv iota. rewrite str_eqb_refl.
    change (str_eqb v_key_type v_cert_type) with false. change (str_eqb v_key_type v_key_type) with true. cbv iota.
    destruct R as (t & T). rewrite (reload_key w (kt_key kt) t P T). cbn [bind]. eauto.
Qed.

Lemma written_any w ks key : pem_ok w -> Forall (read_ok w) ks -> NoDup (map fst ks) -> (forall k, key = Some k -> is_bytes k) ->
  exists ks', opens w (written_store w ks key) ks' key.
Proof.
  intros P F N B. unfold opens, written_store. rewrite load_store by exact N. unfold readStoreFromJson, writeStoreToJson. cbn [dict_get]. rewrite str_eqb_refl.
  assert (forall acc, exists ks', read_entries w acc (map (fun e => (fst e, entry_to_json w (fst e) (snd e))) ks) = Ok ks') as R.
  { clear N. induction F as [|[i kt] ks E F IH]; intros acc; cbn [map read_entries fst snd]; [eauto|]. destruct (written_entry w acc i kt P E) as (ks1 & ->). cbn [bind]. apply IH. }
  destruct (R []) as (ks' & E). exists ks'. split; [exact E|]. destruct key as [k|]; cbn [option_map]; [now apply (store_json_key w ks), B|reflexivity].
Qed.
Lemma written_keeps w cmd j j' out : pem_ok w -> key_store_py w cmd j = Ok (Some j', out) -> (forall t, cmd <> K_fromIni t) -> exists ks key, opens w j' ks key.
Proof.
  intros P H Ni.
  assert (cmd = K_create \/ exists ks key, opens w j ks key) as [->|(ks & key & O)].
  { destruct cmd; auto; try (now elim (Ni stdin)); right; cbn [key_store_py] in H; apply bind_Ok in H as (ks & R & H); apply bind_Ok in H as (key & K & H); exists ks, key; split; assumption. }
  { apply Ok_inj in H. injection H as <- _. exists [], None. apply written_opens; [exact P|constructor|constructor| |discriminate]. intros i c X. discriminate X. }
  destruct (opens_ok _ _ _ _ O) as (F & N & B). destruct O as [R K].
  assert (forall ks' key', Forall (read_ok w) ks' -> NoDup (map fst ks') -> (forall k, key' = Some k -> is_bytes k) -> written_store w ks' key' = j' -> exists ks key, opens w j' ks key) as Wr.
  { intros ks' key' F' N' B' <-. destruct (written_any w ks' key' P F' N' B') as (x & X). eauto. }
  destruct cmd as [| |pem|pem i|i| |stdin| | |stdin]; cbn [key_store_py] in H; try rewrite R in H; cbn [bind] in H; try rewrite K in H; cbn [bind] in H; try discriminate H.
  - apply Ok_inj in H. injection H as H _. apply (Wr [] None); [constructor|constructor|discriminate|exact H].
  - apply bind_Ok in H as (ks' & A & H). apply Ok_inj in H. injection H as H _. unfold putPEMCert in A. apply bind_Ok in A as (c & L & A). apply Ok_inj in A. subst ks'.
    eapply Wr; [|apply nodup_set; exact N|exact B|exact H]. apply set_Forall; [exact F|]. unfold read_ok. cbn [snd kt_cert fst kt_key].
    split; [now exists (Z.abs (w_serial w c))|]. split; [reflexivity|]. now apply load_Ok_cert in L.
  - apply bind_Ok in H as (ks' & A & H). apply Ok_inj in H. injection H as H _. unfold putPEMKey in A. apply bind_Ok in A as (c & L & A). apply Ok_inj in A. subst ks'.
    eapply Wr; [|apply nodup_set; exact N|exact B|exact H]. apply set_Forall; [exact F|]. unfold read_ok. cbn [snd kt_cert kt_key]. now apply load_Ok_key in L.
  - apply Ok_inj in H. injection H as H _. eapply Wr; [|apply nodup_del; exact N|exact B|exact H]. now apply del_Forall.
  - apply bind_Ok in H as (k & A & H). destruct k as [k|]; [|discriminate H]. apply Ok_inj in H. injection H as H _. apply (Wr ks (Some k)); [exact F|exact N| |exact H].
    intros k' E. injection E as <-. unfold new_symmetric_key in A. destruct (file_lines (universal_newlines stdin)) as [|l ls]; [discriminate A|].
    apply bind_Ok in A as (b & _ & A). destruct b as [|b0 b]; [discriminate A|]. apply bind_Ok in A as (k1 & D & A). apply Ok_inj, Some_inj in A. subst. now apply b64decode_bytes in D.
  - apply Ok_inj in H. injection H as H _. apply (Wr ks None); [exact F|exact N|discriminate|exact H].
  - now elim (Ni stdin).
Qed.

Theorem store_session_keeps w calls fs fs' : pem_ok w -> store_session w calls fs fs' ->
  forall name, ~ In [name; lit "fromLegacyIni"] (map fst calls) -> keeps w fs name -> keeps w fs' name.
Proof.
  intros P. induction 1 as [fs|args stdin calls fs fs1 fs' A S IH]; intros name Ni K; [exact K|]. cbn [map fst] in Ni.
  assert (keeps w fs1 name) as K1; [|apply IH; [intros X; apply Ni; now right|exact K1]].
  destruct (store_program w fs stdin args) as [| |wr out] eqn:E; cbn [files_after] in A; [now subst|now subst|].
  apply store_done in E as (file & words & cmd & j & j' & -> & Asks & J & Py & ->). destruct j' as [j'|]; cbn [option_map] in A; [|now subst].
  destruct A as [A1 A2]. destruct (str_eqb name file) eqn:Ef.
  - apply str_eqb_eq in Ef. subst file. destruct (written_keeps w cmd j j' out P Py) as (ks & key & O).
    { intros t ->. inversion Asks; subst. apply Ni. now left. }
    exists j', ks, key. now split.
  - assert (name <> file) as Nf by (intros ->; rewrite str_eqb_refl in Ef; discriminate). destruct K as (j0 & ks & key & F & O). exists j0, ks, key. split; [|exact O].
    destruct (A2 _ Nf) as [-> _]. exact F.
Qed.

Theorem store_session_others w calls fs fs' : store_session w calls fs fs' ->
  forall name, (forall args stdin, In (args, stdin) calls -> hd_error args <> Some name) -> f_json fs' name = f_json fs name /\ f_text fs' name = f_text fs name.
Proof.
  induction 1 as [fs|args stdin calls fs fs1 fs' A S IH]; intros name N; [auto|].
  assert (f_json fs1 name = f_json fs name /\ f_text fs1 name = f_text fs name) as [E1 E2].
  { destruct (store_program w fs stdin args) as [| |wr out] eqn:P; cbn [files_after] in A; [now subst|now subst|].
    apply store_done in P as (file & words & cmd & j & j' & -> & _ & _ & _ & ->). destruct j' as [j'|]; cbn [option_map] in A; [|now subst].
    destruct A as [_ A2]. apply A2. intros ->. apply (N (file :: words) stdin); [now left|reflexivity]. }
  rewrite <- E1, <- E2. apply IH. intros a s I. apply (N a s). now right.
Qed.
