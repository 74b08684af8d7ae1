(** Facts about cert_extract.py together with key_store.py. *)
From Coq Require Import Lia.
From Verif Require Import PyBase ListFacts World Codec SpecReceipt SpecKeys Json Pem PemFacts KeyStore VerifyReceipt State DepParser Verify DepExport SeqFacts ConvertFacts AcceptFacts SpecDep SpecCluster SpecChunks SpecDoc IntFacts KeyStoreCli SpecKeyStoreCli KeyStoreCliFacts CertExtractFacts
  StateArgv SpecStateArgv KeyArgv SpecKeyArgv KeyArgvFacts DemoArgvFacts ExtractArgv SpecExtractArgv.
Open Scope N_scope.

Theorem extract_usage w n enter doc args : extract_program w n enter doc args = X_usage <-> List.length args <> 1%nat.
Proof.
  destruct args as [|a [|b r]]; cbn [extract_program List.length]; split; intros H; try discriminate; try reflexivity; try lia.
  destruct (enter a) as [dir|]; [destruct (cert_extract w n doc dir)|]; discriminate.
Qed.

(** ** The files have no carriage returns. *)
Lemma splitlines_chars : forall n s, (List.length s <= n)%nat -> forall l c, In l (splitlines s) -> In c l -> is_line_end c = false.
Proof.
  induction n as [|n IH]; intros s L l c Il Ic; destruct s as [|x r]; cbn [List.length] in L; try lia; try (destruct Il; fail).
  cbn [splitlines] in Il. destruct (is_line_end x) eqn:X.
  - destruct Il as [<-|Il]; [destruct Ic|]. destruct r as [|y r']; [destruct Il|]. cbn [List.length] in L.
    destruct ((x =? 13) && (y =? c_nl)); [apply (IH r' ltac:(lia) l c Il Ic)|apply (IH (y :: r') ltac:(cbn [List.length]; lia) l c Il Ic)].
  - specialize (IH r ltac:(lia)). destruct (splitlines r) as [|m ls].
    + destruct Il as [<-|[]]. destruct Ic as [<-|[]]. exact X.
    + destruct Il as [<-|Il]; [destruct Ic as [<-|Ic]; [exact X|]|]; [apply (IH m c); [now left|exact Ic]|apply (IH l c); [now right|exact Ic]].
Qed.
Lemma removelast_in {A} (l : list A) x : In x (removelast l) -> In x l.
Proof. induction l as [|a l IH]; [intros []|]. destruct l as [|b l]; [intros []|]. intros [->|H]; [now left|right; now apply IH]. Qed.
Lemma stripped_chars s c : In c (strip_pem s) -> is_line_end c = false.
Proof.
  unfold strip_pem. intros H. apply in_concat in H as (l & Il & Ic). apply removelast_in in Il. apply (splitlines_chars (List.length s) s (le_n _) l c); [|exact Ic].
  destruct (splitlines s); [destruct Il|now right].
Qed.
Lemma join_chars l c : In c (join [c_nl] l) -> c = c_nl \/ exists s, In s l /\ In c s.
Proof.
  induction l as [|s l IH]; [intros []|]. destruct l as [|s' l]; [intros H; right; exists s; split; [now left|exact H]|].
  change (join [c_nl] (s :: s' :: l)) with (s ++ [c_nl] ++ join [c_nl] (s' :: l)). intros H. apply in_app_or in H as [H|H]; [right; exists s; split; [now left|exact H]|].
  cbn [app] in H. destruct H as [<-|H]; [now left|]. apply IH in H as [H|(q & I & J)]; [now left|right; exists q; split; [now right|exact J]].
Qed.
Lemma pieces_chars : forall n s l c, In l (pieces_fuel n s) -> In c l -> In c s.
Proof.
  induction n as [|n IH]; intros s l c I J; destruct s as [|x s]; try (destruct I; fail).
  change (pieces_fuel (S n) (x :: s)) with (firstn 64 (x :: s) :: pieces_fuel n (skipn 64 (x :: s))) in I. rewrite <- (firstn_skipn 64 (x :: s)).
  apply in_or_app. destruct I as [<-|I]; [now left|right; exact (IH _ _ _ I J)].
Qed.
Lemma headers_plain s : (forall c, In c s -> is_line_end c = false) -> ~ In 13 (addPEMCertHeaders s).
Proof.
  intros P H. unfold addPEMCertHeaders in H. apply in_app_or in H as [H|H]; [vm_compute in H; intuition discriminate|]. cbn [app] in H. destruct H as [H|H]; [discriminate H|].
  apply in_app_or in H as [H|[H|H]]; [|discriminate H|vm_compute in H; intuition discriminate].
  apply join_chars in H as [H|(l & I & J)]; [discriminate H|]. apply (pieces_chars _ _ _ _ I) in J. apply P in J. discriminate J.
Qed.
Lemma written_plain w n doc dir d0 name t0 t : fst (cert_extract w n doc []) = d0 -> content_of d0 name = Some t0 -> content_of (fst (cert_extract w n doc dir)) name = Some t -> universal_newlines t = t.
Proof.
  unfold cert_extract. cbv zeta. cbn [fst]. intros <- C0 C. set (l := flat_map group_certs _) in *. apply newlines_id.
  destruct (files_get w l [] name) as [[G N]|(c & I & E & G)]; [rewrite G in C0; discriminate C0|].
  destruct (files_get w l dir name) as [[_ N]|(c' & I' & E' & G')]; [now elim (N c I)|]. rewrite C in G'. injection G' as ->. apply headers_plain. intros x. apply stripped_chars.
Qed.

(** ** Adding certificates *)
Lemma adds w store out stdin : pem_ok w -> forall l fs fs' j ks key, f_json fs store = Ok j -> opens w j ks key -> signless ks ->
  (forall c, In c l -> path out (crt_name w c) <> store /\ exists t, f_text fs (path out (crt_name w c)) = Ok t /\ loadCert w (universal_newlines t) = Ok c) ->
  (forall c c', In c l -> In c' l -> numSerialToKeyId (w_serial w c') = numSerialToKeyId (w_serial w c) -> c' = c) ->
  store_session w (add_calls w store out l stdin) fs fs' ->
  exists j' ks', f_json fs' store = Ok j' /\ opens w j' ks' key
    /\ (forall c, In c l -> found_at ks' (numSerialToKeyId (w_serial w c)) = (Some (w_cert_pubkey w c), Some c))
    /\ (forall i, (forall c, In c l -> numSerialToKeyId (w_serial w c) <> i) -> found_at ks' i = found_at ks i).
Proof.
  intros PO. induction l as [|c l IH]; intros fs fs' j ks key J O Sg F U S.
  - inversion S; subst. exists j, ks. split; [exact J|]. split; [exact O|]. split; [intros c []|reflexivity].
  - cbn [add_calls map] in S. inversion S as [|? ? ? ? fs1 ? A S1]; subst. destruct (F c (or_introl eq_refl)) as (Np & t & T & L).
    assert (store_argv fs stdin [lit "add"; path out (crt_name w c)] = Some (Ok (K_addCert (universal_newlines t)))) as As by (cbn [store_argv]; rewrite T; reflexivity).
    destruct (change_step w fs fs1 store stdin _ (K_addCert (universal_newlines t)) j ks key PO J O Sg Logic.I (ex_intro _ c L) As eq_refl A) as (j2 & ks2 & key2 & J2 & O2 & Sg2 & F2 & K2 & T2).
    cbn [key_after] in K2. subst key2.
    assert (forall i, i = numSerialToKeyId (w_serial w c) /\ found_at ks2 i = (Some (w_cert_pubkey w c), Some c) \/ i <> numSerialToKeyId (w_serial w c) /\ found_at ks2 i = found_at ks i) as F2'.
    { intros i. destruct (F2 i) as (c' & L' & Q). rewrite L in L'. apply Ok_inj in L'. subst c'. exact Q. }
    destruct (IH fs1 fs' j2 ks2 key J2 O2 Sg2) as (j' & ks' & J' & O' & Fi & Fo); [| |exact S1|].
    + intros c' I. destruct (F c' (or_intror I)) as (Np' & t' & T' & L'). split; [exact Np'|]. exists t'. split; [now rewrite T2|exact L'].
    + intros a b Ia Ib. apply U; now right.
    + exists j', ks'. split; [exact J'|]. split; [exact O'|].
      assert (forall i, (exists d, In d l /\ numSerialToKeyId (w_serial w d) = i) \/ (forall d, In d l -> numSerialToKeyId (w_serial w d) <> i)) as Dec.
      { intros i. clear. induction l as [|d l IH]; [right; intros d []|]. destruct (str_eqb (numSerialToKeyId (w_serial w d)) i) eqn:E.
        - apply str_eqb_eq in E. left. exists d. split; [now left|exact E].
        - destruct IH as [(d' & I & E')|N]; [left; exists d'; split; [now right|exact E']|right]. intros d' [<-|I]; [|now apply N]. intros X. rewrite X, str_eqb_refl in E. discriminate E. }
      split.
      * intros c' [<-|I]; [|now apply Fi]. destruct (Dec (numSerialToKeyId (w_serial w c))) as [(d & Id & Ed)|N].
        -- assert (d = c) as -> by (apply U; [now left|now right|exact Ed]). now apply Fi.
        -- rewrite Fo by exact N. destruct (F2' (numSerialToKeyId (w_serial w c))) as [[_ Q]|[Q _]]; [exact Q|now elim Q].
      * intros i N. rewrite Fo by (intros d I; apply N; now right). destruct (F2' i) as [[Q _]|[_ Q]]; [|exact Q]. exfalso. apply (N c); [now left|now symmetry].
Qed.

Theorem extract_added w n enter doc gs dgs out dir fs fs' store l x y : pem_ok w -> dep_doc w doc gs -> plain_names doc -> Forall2 encoded gs dgs -> filled dgs <> [] ->
  certs_first doc \/ n = 0%nat \/ (size dgs < n)%nat -> dep_serials_apart w gs -> enter out = Ok dir ->
  exists dir', extract_program w n enter doc [out] = X_end false (Some (out, dir'))
    /\ (shows fs out dir' -> (forall c, In c l <-> dep_cert gs c) -> (forall c, dep_cert gs c -> path out (crt_name w c) <> store) ->
        store_session w (([store; lit "create"], x) :: add_calls w store out l y) fs fs' ->
        exists j ks, f_json fs' store = Ok j /\ opens w j ks None
          /\ (forall c, dep_cert gs c -> found_at ks (numSerialToKeyId (w_serial w c)) = (Some (w_cert_pubkey w c), Some c))
          /\ (forall i, (forall c, dep_cert gs c -> numSerialToKeyId (w_serial w c) <> i) -> found_at ks i = (None, None))
          /\ (forall g c, In g gs -> gr_texts g <> [] -> gr_cert g = Some c -> verifyCert w c (gr_chain g) ks = Ok tt)).
Proof.
  intros PO D Pl En Fi Or Ap E.
  destruct (extract_complete w n doc gs dgs dir PO D Pl En Fi Or) as (dir' & X & _ & Cu & _).
  destruct (extract_complete w n doc gs dgs [] PO D Pl En Fi Or) as (d0 & X0 & _ & Cu0 & _).
  exists dir'. split; [unfold extract_program; rewrite E, X; reflexivity|]. intros Sh Il Np S.
  inversion S as [|? ? ? ? fs1 ? A1 S1]; subst.
  assert (exists j, f_json fs1 store = Ok j /\ opens w j [] None /\ forall m, m <> store -> f_text fs1 m = f_text fs m) as (j & J1 & O1 & T1).
  { destruct (store_create w JNull PO) as (j & C & O). unfold store_program in A1. change (store_argv fs x [lit "create"]) with (Some (Ok K_create)) in A1. cbn [bind anew] in A1.
    rewrite C in A1. cbn [option_map files_after] in A1. exists j. split; [apply A1|]. split; [exact O|]. intros m M. now apply A1. }
  destruct (adds w store out y PO l fs1 fs' j [] None J1 O1 signless_nil) as (j' & ks & J' & O' & F1 & F2); [| |exact S1|].
  - intros c I. apply Il in I. split; [now apply Np|]. destruct (Cu c I (fun c' D' => Ap c c' I D')) as (t & C & L). destruct (Cu0 c I (fun c' D' => Ap c c' I D')) as (t0 & C0 & _).
    exists t. split; [rewrite T1 by (now apply Np); now apply Sh|]. replace (universal_newlines t) with t; [exact L|]. symmetry.
    apply (written_plain w n doc dir d0 (crt_name w c) t0 t); [now rewrite X0|exact C0|now rewrite X].
  - intros a b Ia Ib Q. apply Il in Ia, Ib. apply Ap; [exact Ia|exact Ib|]. unfold numSerialToKeyId in Q. now apply IntFacts.fmt_x_inj in Q.
  - exists j', ks. split; [exact J'|]. split; [exact O'|].
    assert (forall c, dep_cert gs c -> found_at ks (numSerialToKeyId (w_serial w c)) = (Some (w_cert_pubkey w c), Some c)) as F by (intros c I; apply F1; now apply Il).
    split; [exact F|]. split; [intros i N; apply F2; intros c I; apply N; now apply Il|].
    intros g c Ig Tx Gc. assert (dep_cert gs c) as Dc by (exists g; auto). apply F in Dc. unfold found_at in Dc. injection Dc as _ Dc.
    unfold verifyCert. destruct (gr_chain g) as [|c2 r]; cbn [verifyCert_from]; rewrite Dc, str_eqb_refl; reflexivity.
Qed.

(** Whatever the input is *)
Theorem extract_any w n enter doc args raised d : pem_ok w -> extract_program w n enter doc args = X_end raised d ->
  exists out, args = [out]
    /\ ((d = None /\ raised = true /\ exists e, enter out = Err e)
        \/ exists dir dir', d = Some (out, dir') /\ enter out = Ok dir /\ (raised = true <-> snd (parse_inc w P_certless doc n) <> None)
          /\ forall name, content_of dir' name = content_of dir name
               \/ exists s c t, text_in doc s /\ parseDEPCert w s = Ok c /\ name = crt_name w c /\ content_of dir' name = Some t /\ loadCert w t = Ok c).
Proof.
  intros PO H. destruct args as [|out [|b r]]; try discriminate H. exists out. split; [reflexivity|]. cbn [extract_program] in H. destruct (enter out) as [dir|e] eqn:E.
  - right. destruct (cert_extract w n doc dir) as [dir' x] eqn:X. injection H as <- <-. exists dir, dir'. split; [reflexivity|]. split; [reflexivity|]. split.
    + unfold cert_extract in X. cbv zeta in X. injection X as _ <-. destruct (snd (parse_inc w P_certless doc n)); split; intros Q; try discriminate; try reflexivity; now elim Q.
    + intros name. pose proof (extract_sound w n doc dir name PO) as S. rewrite X in S. exact S.
  - left. injection H as <- <-. split; [reflexivity|]. split; [reflexivity|]. now exists e.
Qed.

(** ** The verdict on the DEP the certificates are from *)
Lemma texts_alike ks ks1 gs : Forall (fun g => gr_cert g <> None) (occupied gs) -> dep_texts ks gs = dep_texts ks1 gs.
Proof.
  induction gs as [|g gs IH]; [reflexivity|]. unfold occupied in *. cbn [filter dep_texts flat_map]. intros F.
  destruct (gr_texts g) as [|t ts] eqn:T; [cbn [map app]; now apply IH|]. inversion F as [|? ? C F']; subst. unfold dep_texts in IH. rewrite IH by exact F'.
  destruct (gr_cert g) as [c|]; [reflexivity|now elim C].
Qed.
Theorem certs_suffice w dep gs ks ks1 key c idx c' : hash_ok w -> dep_is w dep gs -> Forall (fun g => gr_cert g <> None) (occupied gs) ->
  (forall c, dep_cert gs c -> found_at ks (numSerialToKeyId (w_serial w c)) = (Some (w_cert_pubkey w c), Some c)) ->
  verifyDEP w dep ks1 key c idx = (c', None) -> verifyDEP w dep ks key c idx = (c', None).
Proof.
  intros HO D Ce F V. apply (verifyDEP_spec w dep ks1 key c idx c' HO) in V as (before & reg & after_ & reg' & p & items & S1 & (gs' & D' & _ & I & N) & R).
  assert (gs' = gs) as -> by exact (dep_is_fun w dep gs' gs D' D). apply verifyDEP_spec; [exact HO|]. exists before, reg, after_, reg', p, items. split; [exact S1|]. split; [|exact R].
  exists gs. split; [exact D|]. split; [|split; [|exact N]].
  - left. apply Forall_forall. intros g Ig. rewrite Forall_forall in Ce. pose proof (Ce g Ig) as Cg. destruct (gr_cert g) as [x|] eqn:X; [|now elim Cg]. exists x. split; [reflexivity|].
    exists [], x, (gr_chain g). split; [reflexivity|]. split; [|split].
    + exists x. split; [|reflexivity]. unfold occupied in Ig. apply filter_In in Ig as [Ig Tg]. assert (dep_cert gs x) as Dx by (exists g; split; [exact Ig|split; [intros Z; rewrite Z in Tg; discriminate Tg|now right]]).
      apply F in Dx. unfold found_at in Dx. injection Dx as _ Dx. exact Dx.
    + intros l1 a b l2 Q. destruct l1 as [|? [|? ?]]; discriminate Q.
    + intros y k0 [].
  - rewrite (texts_alike ks ks1 gs Ce). exact I.
Qed.
