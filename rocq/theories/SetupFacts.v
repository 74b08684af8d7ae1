(** The devices and the key store of a test are in order. *)
From Coq Require Import Lia ZifyClasses ZifyN ZifyNat ZifyBool Floats.SpecFloat.
From Verif Require Import PyBase ListFacts World Codec PyFloat PyTime Receipt Pem Json KeyStore VerifyReceipt State DepExport
  FieldFacts SpecReceipt ReceiptFacts SpecDep SpecCluster ClusterFacts SpecAmount SpecKeys IntFacts KeyFacts SpecPool CashReg SpecCashReg CashRegFacts
  DemoFacts Override RunTest SpecRunTest TestVerify TestSetup SpecSetup.
Open Scope N_scope.

(** ** Numbers as texts *)
Lemma fmt_pos base z : (0 <= z)%Z -> fmt_base base z = digits base (Z.abs_N z).
Proof. intros P. unfold fmt_base. now replace (z <? 0)%Z with false by lia. Qed.
Lemma fmt_d_digits z : (0 <= z)%Z -> Forall (fun c => 48 <= c <= 57) (fmt_d z) /\ fmt_d z <> [].
Proof.
  intros P. unfold fmt_d. rewrite fmt_pos by exact P. pose proof (digits_numeral 10 (Z.abs_N z) ltac:(lia)) as D.
  split; [|exact (numeral_nonempty _ _ _ D)]. eapply Forall_impl; [|exact (numeral_digits _ _ _ D)].
  intros c (v & [H H']). lia.
Qed.
Lemma fmt_d_inj a b : fmt_d a = fmt_d b -> a = b.
Proof.
  intros H. pose (w := {| u_decimal := fun _ => None; u_isdigit := fun _ => false; u_isalnum := fun _ => false;
    u_isspace := fun _ => false; u_upper := fun s => s; u_lower := fun s => s; w_sha256 := fun b => b; w_aes := fun _ b => b;
    w_es256_verify := fun _ _ _ => false; w_es256_sign := fun _ b => b; w_load_cert := fun _ => None;
    w_load_pubkey := fun _ => None; w_serial := fun _ => 0%Z; w_cert_pubkey := fun c => c;
    w_cert_signed_by := fun _ _ => false; w_cert_pem := fun c => c; w_pubkey_pem := fun k => k |}).
  apply Some_inj. rewrite <- (py_int_fmt w 10 a), <- (py_int_fmt w 10 b) by lia. unfold fmt_d in H. now rewrite H.
Qed.
Lemma numeral_widen s n : numeral 10 s n -> exists n', numeral 16 s n'.
Proof.
  induction 1 as [c v H|s n c v _ [n' IH] H].
  - exists v. constructor. destruct H as [H L]. split; [exact H|lia].
  - exists (n' * 16 + v). constructor; [exact IH|]. destruct H as [H L]. split; [exact H|lia].
Qed.
Lemma kid_not_hex company i z : (0 <= z)%Z -> device_kid company i <> fmt_x z.
Proof.
  intros P E. destruct (fmt_x_chars z P) as [F _]. rewrite <- E in F. unfold device_kid in F. rewrite !Forall_app in F.
  destruct F as (_ & F & _). apply Forall_inv in F. apply (proj1 (proj2 F)). reflexivity.
Qed.
Lemma kid_inj company i j : device_kid company i = device_kid company j -> i = j.
Proof.
  unfold device_kid. intros H. apply app_inv_head in H. change (lit "-K") with [45; 75] in H. cbn [app] in H. injection H as H.
  apply fmt_d_inj in H. lia.
Qed.

Definition zda_check (z : Z) : bool :=
  match fmt_d z with c :: r => (49 <=? c) && (c <=? 57) && forallb (fun x => (48 <=? x) && (x <=? 57)) r | [] => false end.
Lemma zda_checked : forallb (fun k => zda_check (Z.of_nat k)) (List.seq 1 999) = true.
Proof. vm_compute. reflexivity. Qed.
Lemma zda_digits z : (1 <= z <= 999)%Z -> exists c r, fmt_d z = c :: r /\ 49 <= c <= 57 /\ Forall (fun x => 48 <= x <= 57) r.
Proof.
  intros L. pose proof zda_checked as H. rewrite forallb_forall in H. specialize (H (Z.to_nat z)). rewrite Z2Nat.id in H by lia.
  specialize (H ltac:(apply in_seq; lia)). unfold zda_check in H. destruct (fmt_d z) as [|c r]; [discriminate H|]. exists c, r. split; [reflexivity|].
  apply andb_true_iff in H as [H1 H2]. split; [lia|]. rewrite forallb_forall in H2. apply Forall_forall. intros x Hx. specialize (H2 x Hx). cbv beta in H2. lia.
Qed.

(** ** Optional lists *)
Lemma element_item {A} (o : option (list A)) d n i x : element_at o d i x -> (Z.of_nat i < n)%Z -> item_at (elements_or o d n) i = Ok x.
Proof.
  unfold element_at, elements_or, item_at. destruct o as [l|]; [now intros ->|]. intros -> L.
  rewrite (nth_error_nth' _ d) by (rewrite repeat_length; lia). f_equal.
  apply (repeat_spec (Z.to_nat n)). apply nth_In. rewrite repeat_length. lia.
Qed.

(** ** Chains *)
Section Chain.
Variables (w : world) (own : privkey -> pubkey -> Prop) (m : maker).
Hypothesis MO : maker_ok w own m.

(** All the certificates made, from the last one on, and which of them are signed by
    the next one *)
Lemma make_chain_spec failure i f : forall j priv top below num,
  (0 < j -> item_at failure i = Ok f)%nat -> own priv (w_cert_pubkey w top) -> num = w_serial w top ->
  exists priv' top' below' new,
    make_chain m failure i j priv top below num = Ok (priv', (top', below'), w_serial w top')
    /\ own priv' (w_cert_pubkey w top')
    /\ top' :: below' = new ++ top :: below /\ List.length new = j
    /\ (forall k c, nth_error new k = Some c -> cert_read w c /\ w_serial w c = mk_serial m i (P_chain (S k))
          /\ w_cert_pubkey w c = snd (mk_pair m i (P_chain (S k)))
          /\ exists p name z s o, mk_cert m i (P_chain (S k)) p name 365 z s o = Ok c)
    /\ (forall k a b, (k < j)%nat -> nth_error (top' :: below') k = Some a -> nth_error (top' :: below') (S k) = Some b ->
          (Z.of_nat (S k) = f -> w_cert_pubkey w b <> snd (mk_pair m i (P_chain (S k)))) ->
          (w_cert_signed_by w a b = true <-> Z.of_nat (S k) <> f)).
Proof.
  induction j as [|j IH]; intros priv top below num F O ->.
  - exists priv, top, below, []. cbn [make_chain]. split; [reflexivity|]. split; [exact O|]. split; [reflexivity|]. split; [reflexivity|].
    split; [intros [|k] c H; discriminate H|]. intros k a b H. lia.
  - cbn [make_chain]. destruct (mk_pair m i (P_chain (S j))) as [s p] eqn:E. rewrite (F ltac:(lia)). cbn [bind].
    pose proof (mo_pair _ _ _ MO i (P_chain (S j))) as Osp. rewrite E in Osp. cbn [fst snd] in Osp.
    set (fails := (Z.of_nat (S j) =? f)%Z).
    set (signer := if fails then s else priv). set (p' := if fails then p else w_cert_pubkey w top).
    assert (own signer p') as Og by (unfold signer, p'; destruct fails; assumption).
    edestruct (mo_cert _ _ _ MO i (P_chain (S j)) p (lit "intermediate " ++ fmt_d (Z.of_nat (S j)) ++ lit " in " ++ fmt_d (Z.of_nat i))
      (mk_serial m i (P_chain (S j))) signer (Some top) s p' Osp Og (or_introl eq_refl)) as (c & Mc & Rc & Sc & Kc & Sg). rewrite Mc. cbn [bind].
    specialize (Sg top eq_refl). rewrite <- Kc in Osp. rewrite <- Sc.
    destruct (IH s c (top :: below) (w_serial w c) ltac:(intros; apply F; lia) Osp eq_refl) as (priv' & top' & below' & new & -> & O' & El & Ln & Fn & Ad).
    exists priv', top', below', (new ++ [c]). split; [reflexivity|]. split; [exact O'|]. split; [rewrite <- app_assoc; exact El|].
    split; [rewrite app_length, Ln; cbn [List.length]; lia|]. split.
    + intros k d Hk. destruct (Nat.lt_ge_cases k (List.length new)) as [L|L].
      * rewrite nth_error_app1 in Hk by exact L. now apply Fn.
      * rewrite nth_error_app2 in Hk by exact L. destruct (k - List.length new)%nat as [|x] eqn:Ek; [|destruct x; discriminate Hk].
        cbn [nth_error] in Hk. apply Some_inj in Hk. subst d. assert (k = j) as -> by lia. split; [exact Rc|]. split; [exact Sc|]. rewrite E. split; [exact Kc|]. eauto 6.
    + intros k a b Hk Ha Hb Ap. destruct (Nat.lt_ge_cases k j) as [L|L]; [now apply (Ad k)|]. assert (k = j) as -> by lia.
      rewrite El in Ha, Hb. rewrite nth_error_app2 in Ha, Hb by lia. rewrite Ln in Ha, Hb.
      replace (j - j)%nat with 0%nat in Ha by lia. replace (S j - j)%nat with 1%nat in Hb by lia. cbn [nth_error] in Ha, Hb.
      apply Some_inj in Ha, Hb. subst a b. rewrite Sg. unfold p', fails. destruct (Z.eqb_spec (Z.of_nat (S j)) f) as [Ef|Ef].
      * split; [|congruence]. intros H. exfalso. apply (Ap Ef). rewrite E. exact H.
      * split; [intros _; exact Ef|reflexivity].
Qed.
End Chain.

(** ** Devices *)
Definition root_entry (w : world) (c : cert) : key_tuple := KeyTuple (w_cert_pubkey w c) (Some c).
Lemma put_written w ks c : pem_ok w -> cert_read w c ->
  putPEMCert w ks (addPEMCertHeaders (exportCertToPEM w c)) = Ok (dict_set ks (fmt_x (Z.abs (w_serial w c))) (root_entry w c)).
Proof.
  intros P [t L]. pose proof (reload_cert w c t P L) as R. unfold parseKeyStoreCert, putPEMCert in *.
  destruct (loadCert w (addPEMCertHeaders (exportCertToPEM w c))) as [c'|e]; cbn [catch] in R.
  - apply Ok_inj in R. now subst c'.
  - destruct (value_error e); discriminate R.
Qed.

Lemma loaded_read w pem c : loadCert w pem = Ok c -> cert_read w c.
Proof. exact (load_Ok_cert w pem c). Qed.

Lemma signed_all w l : (forall k a b, nth_error l k = Some a -> nth_error l (S k) = Some b -> w_cert_signed_by w a b = true) -> signed_in_turn w l.
Proof.
  intros H l1 a b l2 ->. apply (H (List.length l1)).
  - rewrite nth_error_app2 by lia. now replace (List.length l1 - List.length l1)%nat with 0%nat by lia.
  - rewrite nth_error_app2 by lia. now replace (S (List.length l1) - List.length l1)%nat with 1%nat by lia.
Qed.

Lemma last_cons (l : list cert) : forall x d, last (x :: l) d = last l x.
Proof. induction l as [|y l IH]; intros x d; [reflexivity|]. change (last (x :: y :: l) d) with (last (y :: l) d). now rewrite !IH. Qed.
Lemma hd_of (l : list cert) root top below : top :: below = l ++ [root] -> hd root l = top /\ last below top = root.
Proof.
  intros E. split.
  - destruct l as [|x l]; cbn [app] in E; [injection E as -> _; reflexivity|injection E as -> _; reflexivity].
  - rewrite <- (last_cons below top root), E. apply last_last.
Qed.

Section Devices.
Variables (w : world) (own : privkey -> pubkey -> Prop) (m : maker) (sp : tspec) (closed : bool) (mats : list (str * str)).
Hypothesis MO : maker_ok w own m.
Hypothesis PO : pem_ok w.
Hypothesis KO : cert_keys_ok w.
Hypothesis SO : setup_ok w own m sp closed mats.
Hypothesis NO : ts_number sp = Z.of_nat (List.length mats).
Let n := List.length mats.
Let multi := ts_multi sp.
Let stores := negb closed || multi.
Let publishes := closed || ts_public sp.
Let id_of (c : cert) : str := fmt_x (Z.abs (w_serial w c)).
Let kid (i : nat) : str := device_kid (ts_company sp) i.

Record described (i : nat) (mat : str * str) (d : device) (root : cert) (new : list cert) : Prop := Described {
  de_zda : dv_zda d = if closed then lit "AT0" else lit "AT" ++ fmt_d (mk_zda m i);
  de_own : own (dv_priv d) (w_cert_pubkey w (hd root new));
  de_serial : dv_serial d = if closed then kid i
    else if ts_decimal sp then fmt_d (Z.abs (w_serial w (hd root new))) else fmt_x (Z.abs (w_serial w (hd root new)));
  de_certs : multi = true -> dv_cert d = Some (hd root new) /\ hd root new :: dv_chain d = new ++ [root];
  de_new : forall k c, nth_error new k = Some c ->
    cert_read w c /\ w_serial w c = mk_serial m i (P_chain (S k)) /\ made_for sp closed n i (P_chain (S k));
  de_root : cert_read w root;
  de_rooted : if closed then new = [] /\ w_serial w root = mk_serial m i P_self else loadCert w (fst mat) = Ok root;
  de_single : multi = false -> new = []
}.

Definition stored_root (ks : keystore) (root : cert) : keystore :=
  if stores then dict_set ks (id_of root) (root_entry w root) else ks.
Definition stored_key (ks : keystore) (i : nat) (top : cert) : keystore :=
  if publishes then dict_set ks (kid i) (KeyTuple (w_cert_pubkey w top) None) else ks.

Lemma make_device_spec i mat ks : nth_error mats i = Some mat ->
  exists d root new, make_device w m sp closed i mat ks = Ok (d, stored_key (stored_root ks root) i (hd root new))
    /\ described i mat d root new /\ signed_in_turn w (new ++ [root]).
Proof.
  intros Hm. assert (i < n)%nat as Li. { apply nth_error_Some. now rewrite Hm. }
  assert (Z.of_nat i < ts_number sp)%Z as Lz by (rewrite NO; fold n; lia).
  destruct SO as (MA & SD & _ & _ & _). rewrite Forall_forall in MA. specialize (MA mat (nth_error_In _ _ Hm)).
  specialize (SD i Li). destruct SD as ((ns & Ens & Hns) & Hroot & Hlen). destruct MA as (s & Es & MA).
  unfold make_device. rewrite Es. cbn [bind].
  assert (exists serial priv' top below root new,
    (if closed then
       do pub <- loadPubKey w (fst mat);
       do c <- mk_cert m i P_self pub (device_kid (ts_company sp) i) 365 (mk_serial m i P_self) s None;
       Ok (device_kid (ts_company sp) i, s, (c, []))
     else
       do c <- loadCert w (fst mat);
       do len <- item_at (elements_or (ts_length sp) 0%Z (ts_number sp)) i;
       do ch <- make_chain m (elements_or (ts_failure sp) 0%Z (ts_number sp)) i (Z.to_nat len) s c [] (w_serial w c);
       let '(priv', certs, num) := ch in
       Ok ((if ts_decimal sp then fmt_d (Z.abs num) else numSerialToKeyId num), priv', certs))%py = Ok (serial, priv', (top, below))
    /\ top :: below = new ++ [root] /\ own priv' (w_cert_pubkey w top)
    /\ serial = (if closed then kid i else if ts_decimal sp then fmt_d (Z.abs (w_serial w top)) else fmt_x (Z.abs (w_serial w top)))
    /\ (forall k c, nth_error new k = Some c ->
         cert_read w c /\ w_serial w c = mk_serial m i (P_chain (S k)) /\ made_for sp closed n i (P_chain (S k)))
    /\ signed_in_turn w (new ++ [root]) /\ cert_read w root
    /\ (if closed then new = [] /\ w_serial w root = mk_serial m i P_self else loadCert w (fst mat) = Ok root)
    /\ (multi = false -> new = [])) as (serial & priv' & top & below & root & new & -> & El & Ow & Ser & Fn & Tu & Rr & Ro & Si).
  { clear Hroot. destruct closed.
    - destruct MA as (p & -> & O). cbn [bind].
      edestruct (mo_cert _ _ _ MO i P_self p (device_kid (ts_company sp) i) (mk_serial m i P_self) s None s p O O (or_introl eq_refl)) as (c & -> & Rc & Sc & Kc & _).
      cbn [bind]. exists (device_kid (ts_company sp) i), s, c, [], c, []. rewrite <- Kc in O. split; [reflexivity|]. split; [reflexivity|].
      split; [exact O|]. split; [reflexivity|]. split; [intros [|k] x H; discriminate H|]. split; [apply signed_in_turn_one|]. split; [exact Rc|]. auto.
    - destruct MA as (c & Ec & O). rewrite Ec. cbn [bind]. destruct (Hlen eq_refl) as (len & Elen & Hf).
      rewrite (element_item _ _ _ _ _ Elen Lz). cbn [bind].
      assert (exists f, (0 < Z.to_nat len -> item_at (elements_or (ts_failure sp) 0%Z (ts_number sp)) i = Ok f)%nat /\ (f < 1 \/ len < f)%Z) as (f & Ef & Lf).
      { destruct Hf as [L|(_ & f & Ef & Lf)]; [exists 0%Z; split; [lia|lia]|]. exists f. split; [intros _; now apply element_item|exact Lf]. }
      destruct (make_chain_spec w own m MO _ i f (Z.to_nat len) s c [] (w_serial w c) Ef O eq_refl)
        as (priv' & top & below & new & -> & Ow & El & Ln & Fn & Ad).
      cbn [bind]. exists (if ts_decimal sp then fmt_d (Z.abs (w_serial w top)) else numSerialToKeyId (w_serial w top)), priv', top, below, c, new.
      split; [reflexivity|]. split; [exact El|]. split; [exact Ow|]. split; [reflexivity|]. split.
      { intros k x Hk. destruct (Fn k x Hk) as (A & B & _). split; [exact A|]. split; [exact B|]. split; [exact Li|]. split; [reflexivity|].
        exists len. split; [exact Elen|]. assert (k < List.length new)%nat by (apply nth_error_Some; now rewrite Hk). lia. }
      split. { rewrite <- El. apply signed_all. intros k a b Ha Hb. assert (k < Z.to_nat len)%nat as Lk.
               { assert (S k < List.length (top :: below))%nat by (apply nth_error_Some; now rewrite Hb). rewrite El, app_length, Ln in H. cbn [List.length] in H. lia. }
               apply (Ad k a b Lk Ha Hb); [intros; lia|lia]. }
      split; [exact (loaded_read _ _ _ Ec)|]. split; [reflexivity|]. intros Em. destruct Hf as [L|(Em' & _)]; [|unfold multi in Em; congruence].
      destruct new; [reflexivity|]. cbn [List.length] in Ln. lia. }
  destruct (hd_of new root top below El) as [Hh Hl]. subst top. cbn [bind].
  assert ((if negb closed || ts_multi sp then
       do omitted <- item_at (elements_or (ts_noroot sp) false (ts_number sp)) i;
       if omitted then Ok ks else
       do collides <- item_at (elements_or (ts_collision sp) false (ts_number sp)) i;
       do tl <- (if collides : bool then
            let (s, p) := mk_pair m i P_fake in
            mk_cert m i P_fake p (lit "fake root " ++ fmt_d (Z.of_nat i)) 365 (w_serial w (hd root new)) s None
          else Ok (last below (hd root new)));
       putPEMCert w ks (addPEMCertHeaders (exportCertToPEM w tl))
     else Ok ks)%py = Ok (stored_root ks root)) as ->.
  { unfold stored_root, stores, multi. destruct (negb closed || ts_multi sp) eqn:St; [|reflexivity].
    destruct Hroot as [H1 H2]. { destruct closed; [right; exact St|now left]. }
    rewrite (element_item _ _ _ _ _ H1 Lz). cbn [bind]. rewrite (element_item _ _ _ _ _ H2 Lz). cbn [bind].
    rewrite Hl. now apply put_written. }
  cbn [bind]. rewrite (element_item _ _ _ _ _ Ens Lz). cbn [bind]. eexists. exists root, new. split; [reflexivity|].
  split; [|exact Tu]. constructor; cbn [dv_zda dv_serial dv_priv dv_cert dv_chain]; auto.
  intros Em. rewrite (Hns Em). split; [reflexivity|exact El].
Qed.

(** ** The key store *)
Let rooted (x : nat * cert * cert) : Prop :=
  let '(i, root, top) := x in
  cert_read w root /\ cert_read w top
  /\ if closed then made_for sp closed n i P_self /\ w_serial w root = mk_serial m i P_self else given_cert w mats root.
Let root_of (x : nat * cert * cert) : cert := snd (fst x).
Let index (x : nat * cert * cert) : nat := fst (fst x).
Let top_of (x : nat * cert * cert) : cert := snd x.

Record filled_with (rs : list (nat * cert * cert)) (ks : keystore) : Prop := FilledWith {
  fw_root : stores = true -> forall x, In x rs -> dict_get ks (id_of (root_of x)) = Some (root_entry w (root_of x));
  fw_key : publishes = true -> forall x, In x rs -> dict_get ks (kid (index x)) = Some (KeyTuple (w_cert_pubkey w (top_of x)) None);
  fw_only : forall k t, dict_get ks k = Some t -> exists x, In x rs
    /\ (stores = true /\ k = id_of (root_of x) /\ t = root_entry w (root_of x)
        \/ k = kid (index x) /\ t = KeyTuple (w_cert_pubkey w (top_of x)) None);
  fw_nodup : NoDup (map fst ks)
}.

Lemma id_not_kid c i : kid i <> id_of c.
Proof. unfold kid, id_of. apply kid_not_hex. lia. Qed.

Lemma filled_next rs ks x : filled_with rs ks -> Forall rooted (rs ++ [x]) -> (forall y, In y rs -> index y <> index x) ->
  filled_with (rs ++ [x]) (stored_key (stored_root ks (root_of x)) (index x) (top_of x)).
Proof.
  intros F R D.
  assert (forall y, In y rs -> id_of (root_of y) = id_of (root_of x) -> root_of y = root_of x) as Same.
  { intros y Hy E. unfold id_of in E. apply fmt_x_inj in E. rewrite Forall_forall in R.
    assert (rooted x) as Rx by (apply R, in_or_app; right; now left). assert (rooted y) as Ry by (apply R, in_or_app; now left).
    destruct x as [[i root] top], y as [[i' root'] top']. unfold rooted in Rx, Ry. cbn [root_of index top_of fst snd] in *.
    specialize (D _ Hy). cbn [index fst] in D. destruct SO as (_ & _ & (A1 & _ & A3) & _). destruct (bool_dec closed true) as [Ec|Ec]; [|apply not_true_is_false in Ec]; rewrite Ec in Rx, Ry.
    - rewrite Ec in A1. destruct Rx as (_ & _ & Mx & Sx), Ry as (_ & _ & My & Sy). exfalso. apply D.
      rewrite Sx, Sy in E. pose proof (mo_serial _ _ _ MO i P_self). pose proof (mo_serial _ _ _ MO i' P_self).
      destruct (A1 i' P_self i P_self My Mx ltac:(lia)) as [-> _]. reflexivity.
    - now apply (A3 Ec). }
  assert (forall k, dict_get (stored_root ks (root_of x)) k =
    if stores && str_eqb (id_of (root_of x)) k then Some (root_entry w (root_of x)) else dict_get ks k) as G1.
  { intros k. unfold stored_root. case stores; [apply get_set|reflexivity]. }
  assert (forall k, dict_get (stored_key (stored_root ks (root_of x)) (index x) (top_of x)) k =
    if publishes && str_eqb (kid (index x)) k then Some (KeyTuple (w_cert_pubkey w (top_of x)) None)
    else if stores && str_eqb (id_of (root_of x)) k then Some (root_entry w (root_of x)) else dict_get ks k) as G2.
  { intros k. unfold stored_key. case publishes; [rewrite get_set; cbn [andb]; now rewrite G1|apply G1]. }
  constructor.
  - intros S y Hy. rewrite G2, S. cbn [andb]. replace (str_eqb (kid (index x)) (id_of (root_of y))) with false
      by (symmetry; apply str_eqb_neq, id_not_kid). rewrite andb_false_r. destruct (str_eqb (id_of (root_of x)) (id_of (root_of y))) eqn:E.
    + apply str_eqb_eq in E. apply in_app_or in Hy as [Hy|[<-|[]]]; [|reflexivity]. now rewrite (Same y Hy (eq_sym E)).
    + apply in_app_or in Hy as [Hy|[<-|[]]]; [now apply (fw_root _ _ F S)|]. now rewrite str_eqb_refl in E.
  - intros S y Hy. rewrite G2, S. cbn [andb]. replace (str_eqb (id_of (root_of x)) (kid (index y))) with false
      by (symmetry; apply str_eqb_neq; intros E; now apply (id_not_kid (root_of x) (index y))). rewrite andb_false_r.
    destruct (str_eqb (kid (index x)) (kid (index y))) eqn:E.
    + apply str_eqb_eq in E. apply kid_inj in E. apply in_app_or in Hy as [Hy|[<-|[]]]; [|reflexivity]. exfalso. apply (D y Hy). now symmetry.
    + apply in_app_or in Hy as [Hy|[<-|[]]]; [now apply (fw_key _ _ F S)|]. now rewrite str_eqb_refl in E.
  - intros k t. rewrite G2. destruct (publishes && str_eqb (kid (index x)) k) eqn:E1.
    { intros [= <-]. apply andb_true_iff in E1 as [_ E1]. apply str_eqb_eq in E1. exists x. split; [apply in_or_app; right; now left|]. right. now split. }
    destruct (stores && str_eqb (id_of (root_of x)) k) eqn:E2.
    { intros [= <-]. apply andb_true_iff in E2 as [S E2]. apply str_eqb_eq in E2. exists x. split; [apply in_or_app; right; now left|]. left. split; [exact S|]. split; [now symmetry|reflexivity]. }
    intros H. destruct (fw_only _ _ F k t H) as (y & Hy & C). exists y. split; [apply in_or_app; now left|exact C].
  - unfold stored_key, stored_root. pose proof (fw_nodup _ _ F). case publishes; case stores; repeat apply nodup_set; assumption.
Qed.

Lemma make_devices_spec : forall l done ks rs, mats = done ++ l -> filled_with rs ks -> Forall rooted rs ->
  (forall y, In y rs -> (index y < List.length done)%nat) ->
  exists ds ks' rs', make_devices w m sp closed (List.length done) l ks = Ok (ds, ks')
    /\ filled_with rs' ks' /\ Forall rooted rs'
    /\ List.length ds = List.length l
    /\ (forall y, In y rs -> In y rs')
    /\ forall j d, nth_error ds j = Some d -> exists mat root new, described (List.length done + j) mat d root new /\ signed_in_turn w (new ++ [root])
         /\ nth_error mats (List.length done + j) = Some mat
         /\ In (List.length done + j, root, hd root new)%nat rs'.
Proof.
  induction l as [|mat l IH]; intros done ks rs Em F R L.
  - exists [], ks, rs. split; [reflexivity|]. split; [exact F|]. split; [exact R|]. split; [reflexivity|]. split; [auto|]. intros [|j] d H; discriminate H.
  - cbn [make_devices]. assert (nth_error mats (List.length done) = Some mat) as Hm.
    { rewrite Em, nth_error_app2 by lia. now replace (List.length done - List.length done)%nat with 0%nat by lia. }
    destruct (make_device_spec (List.length done) mat ks Hm) as (d & root & new & -> & De & Tu). cbn [bind fst snd].
    set (x := (List.length done, root, hd root new)).
    assert (rooted x) as Rx.
    { unfold rooted, x. split; [exact (de_root _ _ _ _ _ De)|]. split.
      - destruct new as [|c r] eqn:En; [exact (de_root _ _ _ _ _ De)|]. apply (de_new _ _ _ _ _ De 0%nat c eq_refl).
      - pose proof (de_rooted _ _ _ _ _ De) as H. destruct (bool_dec closed true) as [Ec|Ec]; [|apply not_true_is_false in Ec]; rewrite Ec in H |- *.
        + split; [|apply H]. split; [|reflexivity]. unfold n. apply nth_error_Some. now rewrite Hm.
        + exists mat. split; [exact (nth_error_In _ _ Hm)|exact H]. }
    assert (Forall rooted (rs ++ [x])) as R' by (apply Forall_app; split; [exact R|now constructor]).
    assert (filled_with (rs ++ [x]) (stored_key (stored_root ks root) (List.length done) (hd root new))) as F'.
    { apply (filled_next rs ks x F R'). intros y Hy. apply L in Hy. unfold x. cbn [index fst]. lia. }
    destruct (IH (done ++ [mat]) (stored_key (stored_root ks root) (List.length done) (hd root new)) (rs ++ [x])) as (ds & ks' & rs' & E & F2 & R2 & Ln & Sub & Sp).
    { now rewrite <- app_assoc. }
    { exact F'. }
    { exact R'. }
    { intros y Hy. rewrite app_length. cbn [List.length]. apply in_app_or in Hy as [Hy|[<-|[]]]; [apply L in Hy; lia|]. unfold x. cbn [index fst]. lia. }
    rewrite app_length in E, Sp. cbn [List.length] in E, Sp. rewrite Nat.add_1_r in E, Sp. rewrite E. cbn [bind fst snd].
    exists (d :: ds), ks', rs'. split; [reflexivity|]. split; [exact F2|]. split; [exact R2|]. split; [cbn [List.length]; now rewrite Ln|].
    split; [intros y Hy; apply Sub, in_or_app; now left|].
    intros [|j] d' Hd; cbn [nth_error] in Hd.
    + apply Some_inj in Hd. subst d'. rewrite Nat.add_0_r. exists mat, root, new. split; [exact De|]. split; [exact Tu|]. split; [exact Hm|]. apply Sub, in_or_app. right. now left.
    + destruct (Sp j d' Hd) as (mat' & root' & new' & A & Tu' & B & C). rewrite Nat.add_succ_comm in A, B, C. now exists mat', root', new'.
Qed.

Lemma store_back ks rs o : filled_with rs ks -> Forall rooted rs -> readStoreFromJson w (writeStoreToJson w ks o) = Ok ks.
Proof.
  intros F R. unfold readStoreFromJson, writeStoreToJson. cbn [dict_get]. rewrite str_eqb_refl.
  apply (read_all w ks [] PO); [|exact (fw_nodup _ _ F)]. apply Forall_forall. intros [k t] Hi.
  assert (dict_get ks k = Some t) as G.
  { pose proof (fw_nodup _ _ F) as Nd. clear -Nd Hi. induction ks as [|[k' t'] ks IH]; [contradiction|]. cbn [map fst] in Nd. apply NoDup_cons_iff in Nd as [N1 N2].
    cbn [dict_get]. destruct Hi as [[= -> ->]|Hi]; [now rewrite str_eqb_refl|]. destruct (str_eqb k' k) eqn:E; [|now apply IH].
    apply str_eqb_eq in E. subst k'. exfalso. apply N1. change k with (fst (k, t)). now apply in_map. }
  rewrite Forall_forall in R. destruct (fw_only _ _ F k t G) as (x & Hx & C). specialize (R x Hx). destruct x as [[i root] top]. destruct R as (Rr & Rt & _).
  unfold entry_ok. cbn [fst snd root_of top_of index] in C |- *. destruct C as [(_ & -> & ->)|[-> ->]]; cbn [kt_cert kt_key root_entry].
  - split; [|split; [reflexivity|exact Rr]]. exists (Z.abs (w_serial w root)). split; [lia|reflexivity].
  - exact (KO top Rt).
Qed.

(** ** Devices in order *)
Lemma described_ok i mat d root new s : described i mat d root new ->
  s = SignatureSystemBroken (dv_zda d) (dv_serial d) \/ s = SignatureSystemWorking (dv_zda d) (dv_serial d) (dv_priv d) -> device_ok w s.
Proof.
  intros De Es. assert (sys_zda s = dv_zda d /\ sys_serial s = dv_serial d) as [Z S] by (destruct Es as [->| ->]; now split).
  unfold device_ok. rewrite Z, S, (de_zda _ _ _ _ _ De), (de_serial _ _ _ _ _ De). destruct SO as (_ & _ & _ & CO & _).
  destruct (bool_dec closed true) as [Ec|Ec]; [|apply not_true_is_false in Ec]; rewrite Ec.
  - destruct (CO Ec) as (B & ND & NU & En). split; [exists (lit "AT0"), (@nil N); split; [reflexivity|]; split; [now left|now left]|].
    split; [apply encodes_ascii; repeat constructor|]. unfold kid, device_kid.
    destruct (fmt_d_digits (Z.of_nat i) ltac:(lia)) as [F NE]. split; [|split].
    + left. split; [reflexivity|]. exists (ts_company sp). split; [exact B|]. split; [exact ND|]. right. right.
      exists (75 :: fmt_d (Z.of_nat i)). split; [reflexivity|]. unfold isalnum. cbn [nonempty andb]. apply forallb_forall.
      intros c [<-|Hc]; [reflexivity|]. rewrite Forall_forall in F. specialize (F c Hc). unfold char_isalnum.
      replace (c <? 128) with true by lia. unfold is_09. lia.
    + rewrite !in_app_iff. rewrite Forall_forall in F. intros [H|[H|H]]; [contradiction| |specialize (F _ H); unfold c_us in F; lia].
      vm_compute in H. intuition discriminate.
    + apply (proj2 (encodable_app (ts_company sp) _)). split; [exact En|]. apply encodes_ascii. apply Forall_app. split; [repeat constructor|].
      eapply Forall_impl; [|exact F]. cbv beta. lia.
  - pose proof (mo_zda _ _ _ MO i) as Lz. destruct (zda_digits _ Lz) as (c & r & Ez & Lc & Fr). rewrite Ez.
    assert (lit "AT" ++ c :: r <> lit "AT0") as NE. { change (lit "AT0") with [65; 84; 48]. change (lit "AT") with [65; 84]. cbn [app]. intros [= -> ->]. lia. }
    set (z := Z.abs (w_serial w (hd root new))). assert (0 <= z)%Z as P by (unfold z; lia).
    assert (exists t b, (2 <= b <= 16) /\ (if ts_decimal sp then fmt_d z else fmt_x z) = t /\ t = fmt_base b z /\ (b = 16 \/ b = 10)
            /\ Forall (fun c => c < 128 /\ c <> c_dash /\ c <> c_us) t) as (t & b & Lb & -> & Et & Hb & F).
    { destruct (ts_decimal sp).
      - exists (fmt_d z), 10. split; [lia|]. split; [reflexivity|]. split; [reflexivity|]. split; [now right|].
        eapply Forall_impl; [|exact (proj1 (fmt_d_digits z P))]. unfold c_dash, c_us. cbv beta. lia.
      - exists (fmt_x z), 16. split; [lia|]. split; [reflexivity|]. split; [reflexivity|]. split; [now left|]. exact (proj1 (fmt_x_chars z P)). }
    rewrite Forall_forall in F. pose proof (py_int_fmt w b z Lb) as PI. rewrite <- Et in PI.
    split; [|split; [|split; [|split]]].
    + exists (lit "AT" ++ c :: r), (@nil N). split; [now rewrite app_nil_r|]. split; [now left|]. right. exists 65, 84, c, r.
      split; [reflexivity|]. unfold letter, digit19. split; [lia|]. split; [lia|]. split; [exact Lc|].
      eapply Forall_impl; [|exact Fr]. intros x Lx. cbv beta in Lx. exists (x - 48). unfold decimal, is_09. replace (x <? 128) with true by lia.
      now replace ((48 <=? x) && (x <=? 57)) with true by lia.
    + apply encodes_ascii. apply Forall_app. split; [repeat constructor|]. constructor; [lia|]. eapply Forall_impl; [|exact Fr]. cbv beta. lia.
    + right. split; [exact NE|]. exists t. split; [|split; [|now left]].
      * destruct Hb as [->| ->]; [left|right]; now exists z.
      * intros X. apply F in X. tauto.
    + intros X. apply F in X. tauto.
    + apply encodes_ascii, Forall_forall. intros x X. apply F in X. tauto.
Qed.

Lemma described_known i mat d root new ks rs s : described i mat d root new -> nth_error mats i = Some mat -> filled_with rs ks -> Forall rooted rs ->
  In (i, root, hd root new) rs ->
  s = SignatureSystemBroken (dv_zda d) (dv_serial d) \/ s = SignatureSystemWorking (dv_zda d) (dv_serial d) (dv_priv d) ->
  device_known w (verifier_of ks (device_certificate multi d)) s.
Proof.
  intros De Hm F R Hi Es. assert (sys_zda s = dv_zda d /\ sys_serial s = dv_serial d) as [Z S] by (destruct Es as [->| ->]; now split).
  assert (forall z0 n0 p0, s = SignatureSystemWorking z0 n0 p0 -> p0 = dv_priv d) as Ep.
  { intros z0 n0 p0 E. destruct Es as [E'|E']; rewrite E' in E; [discriminate E|]. now injection E. }
  pose proof (mo_sign _ _ _ MO _ _ (de_own _ _ _ _ _ De)) as KP.
  set (top := hd root new) in *. set (z := Z.abs (w_serial w top)). assert (0 <= z)%Z as P by (unfold z; lia).
  assert (closed = false -> dv_zda d <> lit "AT0") as NE.
  { intros Ec. rewrite (de_zda _ _ _ _ _ De), Ec. destruct (zda_digits _ (mo_zda _ _ _ MO i)) as (c & r & -> & Lc & _).
    change (lit "AT0") with [65; 84; 48]. change (lit "AT") with [65; 84]. cbn [app]. intros [= -> ->]. lia. }
  assert (forall t, t = fmt_x z \/ t = fmt_d z -> unsigned_serial t = t) as Us.
  { intros t [->| ->]; [now apply unsigned_fmt|]. destruct (fmt_d_digits z P) as [Fd _]. destruct (fmt_d z) as [|c r]; [reflexivity|].
    unfold unsigned_serial. apply Forall_inv in Fd. destruct (N.eqb_spec c c_dash) as [->|_]; [unfold c_dash in Fd; lia|reflexivity]. }
  unfold device_known. rewrite Z, S. unfold device_certificate. destruct (bool_dec multi true) as [Em|Em]; [|apply not_true_is_false in Em]; rewrite Em.
  - destruct (de_certs _ _ _ _ _ De Em) as [Dc _]. rewrite Dc. cbn [verifier_of fromCert v_cert]. split.
    + intros c [= <-]. destruct (bool_dec closed true) as [Ec|Ec]; [left; rewrite (de_zda _ _ _ _ _ De), Ec; reflexivity|]. apply not_true_is_false in Ec.
      right. rewrite (de_serial _ _ _ _ _ De), Ec. fold top z. destruct (ts_decimal sp); [right|left]; exists z; rewrite Us by auto;
        (split; [apply py_int_fmt; lia|reflexivity]).
    + intros z0 n0 p0 E. rewrite (Ep _ _ _ E). exists (w_cert_pubkey w top). now split.
  - cbn [verifier_of fromKeyStore v_cert v_store]. split; [discriminate|]. intros z0 n0 p0 E. rewrite (Ep _ _ _ E).
    exists (w_cert_pubkey w top). split; [exact KP|]. exists ks. split; [reflexivity|].
    assert (top = root) as Tr by (unfold top; now rewrite (de_single _ _ _ _ _ De Em)).
    destruct (bool_dec closed true) as [Ec|Ec]; [|apply not_true_is_false in Ec].
    + left. split; [rewrite (de_zda _ _ _ _ _ De), Ec; reflexivity|]. rewrite (de_serial _ _ _ _ _ De), Ec. unfold has_key, getKey.
      pose proof (fw_key _ _ F ltac:(unfold publishes; now rewrite Ec) _ Hi) as G. cbn [index top_of fst snd] in G. now rewrite G.
    + right. split; [exact (NE Ec)|]. rewrite (de_serial _ _ _ _ _ De), Ec. fold top z.
      assert (stores = true) as St by (unfold stores; now rewrite Ec).
      assert (has_key ks (fmt_x z) (w_cert_pubkey w top)) as Hk.
      { unfold has_key, getKey. pose proof (fw_root _ _ F St _ Hi) as G. cbn [root_of fst snd] in G. unfold z. rewrite Tr. unfold id_of in G. now rewrite G. }
      destruct (ts_decimal sp) eqn:Ed.
      * destruct (numeral_widen (fmt_d z) (Z.abs_N z)) as [x' Nx]. { unfold fmt_d. rewrite fmt_pos by exact P. apply digits_numeral. lia. }
        pose proof (py_int_numeral w 16 _ _ ltac:(lia) Nx) as PI.
        destruct (getKey ks (fmt_x (Z.of_N x'))) as [k|] eqn:G.
        -- left. exists (fmt_x (Z.of_N x')). split; [exists (Z.of_N x'); rewrite Us by auto; now split|].
           unfold has_key. rewrite G. f_equal. unfold getKey in G. destruct (dict_get ks (fmt_x (Z.of_N x'))) as [t|] eqn:Gd; [|discriminate G].
           cbn [option_map] in G. apply Some_inj in G. subst k. destruct (fw_only _ _ F _ _ Gd) as (y & Hy & [(_ & Ei & ->)|(Ei & _)]).
           ++ cbn [root_entry kt_key]. f_equal. rewrite Tr. destruct SO as (_ & _ & _ & _ & DC). specialize (DC Ec Em Ed).
              rewrite Forall_forall in R. pose proof (R _ Hy) as Ry. pose proof (R _ Hi) as Rx. destruct y as [[iy ry] ty]. unfold rooted in Rx, Ry. rewrite Ec in Rx, Ry.
              cbn [root_of fst snd] in Ei |- *. unfold id_of in Ei. apply fmt_x_inj in Ei. symmetry.
              apply (DC root ry (fmt_d z)); [apply Rx|apply Ry| |].
              ** unfold fmt_d. rewrite fmt_pos by exact P. unfold z. rewrite Tr. replace (Z.abs_N (Z.abs (w_serial w root))) with (Z.abs_N (w_serial w root)) by lia. apply digits_numeral. lia.
              ** replace (Z.abs_N (w_serial w ry)) with x' by lia. exact Nx.
           ++ exfalso. symmetry in Ei. revert Ei. unfold kid. apply kid_not_hex. lia.
        -- right. split.
           ++ intros j (z' & Ez & ->). rewrite Us in Ez by auto. rewrite PI in Ez. apply Some_inj in Ez. now subst z'.
           ++ exists (fmt_x z). split; [|exact Hk]. exists z. rewrite Us by auto. split; [apply py_int_fmt; lia|reflexivity].
      * left. exists (fmt_x z). split; [|exact Hk]. exists z. rewrite Us by auto. split; [apply py_int_fmt; lia|reflexivity].
Qed.

Lemma described_trusted i mat d root new ks rs : described i mat d root new -> signed_in_turn w (new ++ [root]) -> nth_error mats i = Some mat -> filled_with rs ks -> Forall rooted rs ->
  In (i, root, hd root new) rs -> multi = true ->
  (exists c, dv_cert d = Some c /\ trusted w ks c (dv_chain d))
  /\ forall c, dv_cert d = Some c \/ In c (dv_chain d) -> exists t, loadCert w t = Ok c.
Proof.
  intros De Tu Hm F R Hi Em. destruct (de_certs _ _ _ _ _ De Em) as [Dc Dh].
  assert (stores = true) as St by (unfold stores; rewrite Em; apply orb_true_r).
  split.
  - exists (hd root new). split; [exact Dc|]. exists new, root, []. split; [exact Dh|]. split; [|split].
    + exists root. split; [|reflexivity]. unfold stored, getCert. pose proof (fw_root _ _ F St _ Hi) as G. cbn [root_of fst snd] in G. unfold id_of in G. now rewrite G.
    + exact Tu.
    + intros y k Hy G. exfalso. destruct (In_nth_error _ _ Hy) as [j Hj]. destruct (de_new _ _ _ _ _ De j y Hj) as (_ & Sy & My).
      unfold stored, getCert in G. destruct (dict_get ks (fmt_x (Z.abs (w_serial w y)))) as [t|] eqn:Gd; [|discriminate G].
      destruct (fw_only _ _ F _ _ Gd) as (x & Hx & [(_ & Ei & _)|(Ei & _)]).
      2:{ symmetry in Ei. revert Ei. unfold kid. apply kid_not_hex. lia. }
      unfold id_of in Ei. apply fmt_x_inj in Ei. rewrite Forall_forall in R. pose proof (R _ Hx) as Rx. destruct x as [[ix rx] tx]. unfold rooted in Rx.
      cbn [root_of fst snd] in Ei. pose proof (mo_serial _ _ _ MO i (P_chain (S j))) as Pz. rewrite Sy in Ei.
      destruct SO as (_ & _ & (_ & A2 & _) & _). destruct My as (Li & Ec & len & El & Ll). rewrite Ec in Rx.
      apply (A2 Ec rx i (P_chain (S j))); [apply Rx| |rewrite <- Ei; lia]. split; [exact Li|]. split; [exact Ec|]. now exists len.
  - intros c Hc. assert (In c (new ++ [root])) as Hin.
    { rewrite <- Dh. destruct Hc as [E|Hc]; [left; rewrite Dc in E; now injection E|now right]. }
    assert (cert_read w c) as [t Ht].
    { apply in_app_or in Hin as [Hin|[<-|[]]]; [|exact (de_root _ _ _ _ _ De)]. destruct (In_nth_error _ _ Hin) as [j Hj]. apply (de_new _ _ _ _ _ De j c Hj). }
    pose proof (reload_cert w c t PO Ht) as L. exists (addPEMCertHeaders (exportCertToPEM w c)). unfold parseKeyStoreCert in L.
    destruct (loadCert w (addPEMCertHeaders (exportCertToPEM w c))) as [c'|e]; cbn [catch] in L; [exact L|]. destruct (value_error e); discriminate L.
Qed.

Theorem setup_works : exists devs ks, make_devices w m sp closed 0 mats [] = Ok (devs, ks)
  /\ List.length devs = List.length mats
  /\ Forall (device_fit w ks (ts_multi sp)) devs
  /\ Forall (fun d => dv_zda d = lit "AT0" <-> closed = true) devs
  /\ forall o, readStoreFromJson w (writeStoreToJson w ks o) = Ok ks.
Proof.
  destruct (make_devices_spec mats [] [] []) as (devs & ks & rs & E & F & R & L & _ & Sp).
  - reflexivity.
  - constructor; [intros _ x []|intros _ x []|discriminate|constructor].
  - constructor.
  - intros y [].
  - exists devs, ks. split; [exact E|]. split; [exact L|].
    assert (forall d, In d devs -> exists i mat root new, described i mat d root new /\ signed_in_turn w (new ++ [root]) /\ nth_error mats i = Some mat /\ In (i, root, hd root new) rs) as Sp'.
    { intros d Hd. apply In_nth_error in Hd as [j Hj]. destruct (Sp j d Hj) as (mat & root & new & A & Tu & B & C). cbn [List.length Nat.add] in A, B, C. exists j, mat, root, new. auto. }
    split; [|split].
    + apply Forall_forall. intros d Hd. destruct (Sp' d Hd) as (i & mat & root & new & De & Tu & Hm & Hi). split.
      * intros s Es. split; [exact (described_ok _ _ _ _ _ s De Es)|]. exact (described_known _ _ _ _ _ ks rs s De Hm F R Hi Es).
      * intros Em. exact (described_trusted _ _ _ _ _ ks rs De Tu Hm F R Hi Em).
    + apply Forall_forall. intros d Hd. destruct (Sp' d Hd) as (i & mat & root & new & De & _ & _). rewrite (de_zda _ _ _ _ _ De).
      destruct (bool_dec closed true) as [Ec|Ec]; [|apply not_true_is_false in Ec]; rewrite Ec; [now split|].
      split; [|discriminate]. destruct (zda_digits _ (mo_zda _ _ _ MO i)) as (c & r & -> & Lc & _).
      change (lit "AT0") with [65; 84; 48]. change (lit "AT") with [65; 84]. cbn [app]. intros [= -> ->]. lia.
    + intros o. exact (store_back ks rs o F R).
Qed.
End Devices.
