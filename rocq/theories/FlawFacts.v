(** Tests with one signature device, the certificates of which are flawed. *)
From Coq Require Import Lia ZifyClasses ZifyN ZifyNat ZifyBool.
From Verif Require Import PyBase ListFacts World Codec PyFloat PyTime Receipt Pem Json KeyStore VerifyReceipt State DepParser Verify DepExport
  SpecReceipt SpecDep SpecCluster ClusterFacts SpecAmount SpecKeys IntFacts KeyFacts SpecPool SpecState SpecDiag CashReg SpecCashReg
  Override RunTest SpecRunTest TestVerify SpecTestVerify TestVerifyFacts TestSetup SpecSetup SetupFacts SetupTest CertTest SpecFlaw.
Open Scope N_scope.
Open Scope py_scope.

(** The specification without the flaw *)
Definition mended (sp : tspec) : tspec :=
  TSpec (ts_number sp) (ts_aes sp) (ts_size sp) (ts_id sp) (ts_company sp) (ts_multi sp) (ts_decimal sp) (ts_public sp) (ts_length sp)
    (ts_nosign sp) None None None (ts_instrs sp).

Lemma fingerprint_neq w a b : hash_ok w -> ~ same_fingerprint w a b -> certFingerprint w a <> certFingerprint w b.
Proof. intros HO N E. apply N. apply (fingerprint_iff w a b HO). now apply str_eqb_eq. Qed.

Lemma getCert_key ks i company k c : getCert (putKey ks (device_kid company i) k None) (fmt_x (Z.abs c)) = getCert ks (fmt_x (Z.abs c)).
Proof.
  unfold getCert, putKey. rewrite get_set. replace (str_eqb (device_kid company i) (fmt_x (Z.abs c))) with false; [reflexivity|].
  symmetry. apply str_eqb_neq. apply kid_not_hex. lia.
Qed.

Section Flaw.
Variables (w : world) (own : privkey -> pubkey -> Prop) (m : maker) (sp : tspec) (closed : bool) (mat : str * str) (n : nat) (fl : flaw).
Hypothesis HO : hash_ok w.
Hypothesis MO : maker_ok w own m.
Hypothesis PO : pem_ok w.
Hypothesis KO : cert_keys_ok w.
Hypothesis FS : flawed_setup w own m sp closed mat n fl.

Lemma mended_ok : setup_ok w own m (mended sp) closed [mat].
Proof using FS.
  destruct FS as (MA & Nu & Mu & Ns & CL & HF & SA & CO & KA & FP). split; [now repeat constructor|]. split; [|split; [exact SA|split; [exact CO|]]].
  - intros i Li. assert (i = 0%nat) as -> by (cbn [List.length] in Li; lia). unfold sound_device. cbn [mended ts_nosign ts_multi ts_noroot ts_collision ts_length ts_failure element_at].
    split; [exists false; auto|]. split; [auto|]. intros Ec. unfold chain_length in CL. rewrite Ec in CL. destruct CL as (z & Ez & _). exists z. split; [exact Ez|].
    right. split; [exact Mu|]. exists 0%Z. split; [reflexivity|lia].
  - cbn [mended ts_multi]. congruence.
Qed.

(** The certificates *)
Record links (top : cert) (below : list cert) (root : cert) (new : list cert) (f : Z) : Prop := Links {
  li_all : top :: below = new ++ [root];
  li_length : List.length new = n;
  li_new : forall k c, nth_error new k = Some c -> cert_read w c /\ w_serial w c = mk_serial m 0 (P_chain (S k))
             /\ w_cert_pubkey w c = snd (mk_pair m 0 (P_chain (S k))) /\ at_hand w m mat c;
  li_root : cert_read w root /\ at_hand w m mat root /\ material_key w closed mat (w_cert_pubkey w root)
             /\ (if closed then w_serial w root = mk_serial m 0 P_self else loadCert w (fst mat) = Ok root);
  li_signed : forall k a b, nth_error (top :: below) k = Some a -> nth_error (top :: below) (S k) = Some b ->
             (w_cert_signed_by w a b = true <-> Z.of_nat (S k) <> f)
}.

Lemma flawed_failure : exists f, (n <> 0%nat -> element_at (ts_failure sp) 0%Z 0 f)
  /\ match fl with F_untrusted => (f < 1 \/ Z.of_nat n < f)%Z | F_broken g => f = Z.of_nat g /\ (1 <= g <= n)%nat | F_collision => True end.
Proof using FS.
  destruct FS as (_ & _ & _ & _ & _ & HF & _). destruct fl as [|g|]; cbn [has_flaw] in HF.
  - destruct HF as (_ & [->|(f & E & L)]); [exists 0%Z; split; [congruence|lia]|]. exists f. auto.
  - destruct HF as (E & L & _). exists (Z.of_nat g). auto.
  - destruct HF as (_ & _ & [->|(f & E)]); [exists 0%Z; split; [congruence|exact Logic.I]|]. exists f. auto.
Qed.

Lemma flawed_certs f : (n <> 0%nat -> element_at (ts_failure sp) 0%Z 0 f) -> exists s serial priv' top below root new,
  mk_priv m (snd mat) = Ok s
  /\ (if closed then
       do pub <- loadPubKey w (fst mat);
       do c <- mk_cert m 0 P_self pub (device_kid (ts_company sp) 0) 365 (mk_serial m 0 P_self) s None;
       Ok (device_kid (ts_company sp) 0, s, (c, []))
     else
       do c <- loadCert w (fst mat);
       do len <- item_at (elements_or (ts_length sp) 0%Z (ts_number sp)) 0;
       do ch <- make_chain m (elements_or (ts_failure sp) 0%Z (ts_number sp)) 0 (Z.to_nat len) s c [] (w_serial w c);
       let '(priv', certs, num) := ch in
       Ok ((if ts_decimal sp then fmt_d (Z.abs num) else numSerialToKeyId num), priv', certs)) = Ok (serial, priv', (top, below))
  /\ links top below root new f
  /\ described w own m (mended sp) closed [mat] 0 mat (Device (if closed then lit "AT0" else lit "AT" ++ fmt_d (mk_zda m 0)) serial priv' (Some top) below) root new.
Proof using FS MO.
  intros Ef. destruct FS as (MA & Nu & Mu & Ns & CL & HF & SA & CO & KA & FP). destruct MA as (s & Es & MA).
  assert (Z.of_nat 0 < ts_number sp)%Z as Lz by lia. exists s. unfold chain_length in CL.
  assert (exists serial priv' top below root new,
    (if closed then
       do pub <- loadPubKey w (fst mat);
       do c <- mk_cert m 0 P_self pub (device_kid (ts_company sp) 0) 365 (mk_serial m 0 P_self) s None;
       Ok (device_kid (ts_company sp) 0, s, (c, []))
     else
       do c <- loadCert w (fst mat);
       do len <- item_at (elements_or (ts_length sp) 0%Z (ts_number sp)) 0;
       do ch <- make_chain m (elements_or (ts_failure sp) 0%Z (ts_number sp)) 0 (Z.to_nat len) s c [] (w_serial w c);
       let '(priv', certs, num) := ch in
       Ok ((if ts_decimal sp then fmt_d (Z.abs num) else numSerialToKeyId num), priv', certs)) = Ok (serial, priv', (top, below))
    /\ links top below root new f /\ own priv' (w_cert_pubkey w top)
    /\ serial = (if closed then device_kid (ts_company sp) 0 else if ts_decimal sp then fmt_d (Z.abs (w_serial w top)) else fmt_x (Z.abs (w_serial w top)))
    /\ (forall k c, nth_error new k = Some c -> made_for sp closed 1 0 (P_chain (S k)))
    /\ (closed = true -> new = [])) as (serial & priv' & top & below & root & new & E & Li & Ow & Ser & Mf & Nn).
  { assert (forall u, used_purpose n u -> forall p, material_key w closed mat p -> p <> snd (mk_pair m 0 u)) as KA2 by (intros u Hu p Hp; now apply KA).
    unfold material_ok in MA. destruct (bool_dec closed true) as [E0|E0]; [|apply not_true_is_false in E0]; rewrite E0 in MA, CL; rewrite E0.
    - destruct MA as (p & Ep & O). rewrite Ep. cbn [bind].
      edestruct (mo_cert _ _ _ MO 0%nat P_self p (device_kid (ts_company sp) 0) (mk_serial m 0 P_self) s None s p O O (or_introl eq_refl)) as (c & Mc & Rc & Sc & Kc & _).
      rewrite Mc. cbn [bind]. exists (device_kid (ts_company sp) 0), s, c, [], c, []. split; [reflexivity|]. split; [|split; [now rewrite Kc|split; [reflexivity|split; [intros [|k] x H; discriminate H|reflexivity]]]].
      constructor; [reflexivity|now rewrite CL|intros [|k] x H; discriminate H| |intros [|k] a b H H'; discriminate H'].
      split; [exact Rc|]. split; [split; [exact Rc|right; eauto 7]|]. split; [unfold material_key; rewrite E0, Kc; exact Ep|rewrite E0; exact Sc].
    - destruct MA as (c & Ec & O). rewrite Ec. cbn [bind]. destruct CL as (len & Elen & En).
      rewrite (element_item _ _ _ _ _ Elen Lz). cbn [bind].
      assert (0 < Z.to_nat len -> item_at (elements_or (ts_failure sp) 0%Z (ts_number sp)) 0 = Ok f)%nat as Ef'.
      { intros L. apply element_item; [apply Ef; lia|exact Lz]. }
      destruct (make_chain_spec w own m MO _ 0%nat f (Z.to_nat len) s c [] (w_serial w c) Ef' O eq_refl)
        as (priv' & top & below & new & -> & Ow & El & Ln & Fn & Ad).
      cbn [bind]. exists (if ts_decimal sp then fmt_d (Z.abs (w_serial w top)) else numSerialToKeyId (w_serial w top)), priv', top, below, c, new.
      split; [reflexivity|]. split; [|split; [exact Ow|split; [reflexivity|split; [|congruence]]]].
      2:{ intros k x Hk. split; [lia|]. split; [reflexivity|]. exists len. split; [exact Elen|]. assert (k < List.length new)%nat by (apply nth_error_Some; now rewrite Hk). lia. }
      constructor; [exact El|congruence| | |].
      + intros k x Hk. destruct (Fn k x Hk) as (A & B & C & p & name & z & s' & o & D). split; [exact A|]. split; [exact B|]. split; [exact C|]. split; [exact A|]. right. eauto 8.
      + pose proof (loaded_read _ _ _ Ec) as Rc. split; [exact Rc|]. split; [split; [exact Rc|now left]|]. split; [unfold material_key; rewrite E0; exists c; now split|rewrite E0; exact Ec].
      + intros k a b Ha Hb. assert (k < Z.to_nat len)%nat as Lk.
        { assert (S k < List.length (top :: below))%nat by (apply nth_error_Some; now rewrite Hb). rewrite El, app_length, Ln in H. cbn [List.length] in H. lia. }
        apply (Ad k a b Lk Ha Hb). intros _. rewrite El in Hb. destruct (Nat.lt_ge_cases (S k) (List.length new)) as [L|L].
        * rewrite nth_error_app1 in Hb by exact L. destruct (Fn (S k) b Hb) as (_ & _ & -> & _). intros X. apply (proj1 KA) in X; [injection X; lia|cbn [used_purpose]; lia..].
        * rewrite nth_error_app2 in Hb by exact L. destruct (S k - List.length new)%nat as [|x] eqn:Ek; [|destruct x; discriminate Hb].
          cbn [nth_error] in Hb. apply Some_inj in Hb. subst b. apply KA2; [cbn [used_purpose]; lia|]. unfold material_key. rewrite E0. exists c. now split. }
  exists serial, priv', top, below, root, new. split; [exact Es|]. split; [exact E|]. split; [exact Li|].
  destruct (hd_of new root top below (li_all _ _ _ _ _ Li)) as [Hh _].
  constructor; cbn [mended dv_zda dv_serial dv_priv dv_cert dv_chain ts_multi ts_decimal ts_company]; rewrite ?Hh.
  - reflexivity.
  - exact Ow.
  - exact Ser.
  - intros _. split; [reflexivity|exact (li_all _ _ _ _ _ Li)].
  - intros k c Hk. destruct (li_new _ _ _ _ _ Li k c Hk) as (A & B & _). split; [exact A|]. split; [exact B|]. exact (Mf k c Hk).
  - apply Li.
  - pose proof (li_root _ _ _ _ _ Li) as (_ & _ & _ & R). destruct closed; [split; [now apply Nn|exact R]|exact R].
  - congruence.
Qed.

Lemma link_at top below root new f k c : links top below root new f -> nth_error (top :: below) k = Some c ->
  exists z, link_serial w m closed mat n k z /\ key_id w c = fmt_x z.
Proof using FS MO.
  intros Li. rewrite (li_all _ _ _ _ _ Li). intros Hk. pose proof (li_length _ _ _ _ _ Li) as Ln.
  destruct (Nat.lt_ge_cases k (List.length new)) as [L|L].
  - rewrite nth_error_app1 in Hk by exact L. destruct (li_new _ _ _ _ _ Li k c Hk) as (_ & Sc & _). exists (mk_serial m 0 (P_chain (S k))).
    split; [|unfold key_id; rewrite Sc; f_equal; pose proof (mo_serial _ _ _ MO 0%nat (P_chain (S k))); lia].
    unfold link_serial. destruct FS as (_ & _ & _ & _ & CL & _). unfold chain_length in CL. destruct (bool_dec closed true) as [E|E]; [|apply not_true_is_false in E]; rewrite E in CL |- *; [lia|].
    replace (k <? n)%nat with true by lia. reflexivity.
  - rewrite nth_error_app2 in Hk by exact L. destruct (k - List.length new)%nat as [|x] eqn:Ek; [|destruct x; discriminate Hk].
    cbn [nth_error] in Hk. apply Some_inj in Hk. subst c. destruct (li_root _ _ _ _ _ Li) as (_ & _ & _ & R). unfold link_serial, key_id.
    destruct (bool_dec closed true) as [E|E]; [|apply not_true_is_false in E]; rewrite E in R |- *.
    + exists (mk_serial m 0 P_self). split; [reflexivity|]. rewrite R. f_equal. pose proof (mo_serial _ _ _ MO 0%nat P_self). lia.
    + exists (Z.abs (w_serial w root)). split; [|reflexivity]. replace (k <? n)%nat with false by lia. now exists root.
Qed.

Lemma top_positive top below root new f : links top below root new f -> fl = F_collision -> (0 < w_serial w top)%Z.
Proof using FS MO.
  intros Li Ef. destruct (hd_of new root top below (li_all _ _ _ _ _ Li)) as [Hh _].
  destruct new as [|c new]; cbn [hd] in Hh; subst.
  - destruct (li_root _ _ _ _ _ Li) as (_ & _ & _ & R). destruct FS as (_ & _ & _ & _ & _ & _ & _ & _ & _ & FP). destruct (FP eq_refl) as [_ P].
    destruct (bool_dec closed true) as [E|E]; [|apply not_true_is_false in E]; rewrite E in R; [rewrite R; apply (mo_serial _ _ _ MO)|now apply P].
  - destruct (li_new _ _ _ _ _ Li 0%nat top eq_refl) as (_ & -> & _). apply (mo_serial _ _ _ MO).
Qed.

(** What the key store holds besides the public key *)
Inductive base (top root : cert) : keystore -> Prop :=
| b_none : fl = F_untrusted \/ (exists f, fl = F_broken f) -> base top root []
| b_root : (exists f, fl = F_broken f) -> base top root [(fmt_x (Z.abs (w_serial w root)), root_entry w root)]
| b_fake c : fl = F_collision -> cert_read w c -> at_hand w m mat c -> w_serial w c = w_serial w top -> w_cert_pubkey w c = snd (mk_pair m 0 P_fake) ->
    base top root [(fmt_x (Z.abs (w_serial w top)), root_entry w c)].

Lemma flawed_device : exists top below root new f s serial b0,
  make_device w m sp closed 0 mat [] = Ok (Device (if closed then lit "AT0" else lit "AT" ++ fmt_d (mk_zda m 0)) serial s (Some top) below,
    if closed || ts_public sp then putKey b0 (device_kid (ts_company sp) 0) (w_cert_pubkey w top) None else b0)
  /\ links top below root new f /\ base top root b0
  /\ described w own m (mended sp) closed [mat] 0 mat (Device (if closed then lit "AT0" else lit "AT" ++ fmt_d (mk_zda m 0)) serial s (Some top) below) root new
  /\ match fl with F_untrusted => (f < 1 \/ Z.of_nat n < f)%Z | F_broken g => f = Z.of_nat g /\ (1 <= g <= n)%nat | F_collision => True end.
Proof using FS MO PO.
  destruct flawed_failure as (f & Ef & Lf). destruct (flawed_certs f Ef) as (s & serial & priv' & top & below & root & new & Es & E & Li & De).
  pose proof (top_positive _ _ _ _ _ Li) as TP. pose proof FS as (_ & Nu & Mu & Ns & _ & HF & _).
  assert (Z.of_nat 0 < ts_number sp)%Z as Lz by lia. destruct (hd_of new root top below (li_all _ _ _ _ _ Li)) as [Hh Hl].
  assert (exists b0, (do omitted <- item_at (elements_or (ts_noroot sp) false (ts_number sp)) 0;
       if omitted : bool then Ok [] else
       do collides <- item_at (elements_or (ts_collision sp) false (ts_number sp)) 0;
       do tl <-
         (if collides : bool then
            let (s, p) := mk_pair m 0 P_fake in
            mk_cert m 0 P_fake p (lit "fake root " ++ fmt_d (Z.of_nat 0)) 365 (w_serial w top) s None
          else Ok (last below top));
       putPEMCert w [] (addPEMCertHeaders (exportCertToPEM w tl))) = Ok b0 /\ base top root b0) as (b0 & Eb & B).
  { destruct fl as [|g|] eqn:Efl; cbn [has_flaw] in HF.
    - destruct HF as [H _]. rewrite (element_item _ _ _ _ _ H Lz). cbn [bind]. exists []. split; [reflexivity|]. constructor. now left.
    - destruct HF as (_ & _ & o & Ho & Hc). rewrite (element_item _ _ _ _ _ Ho Lz). cbn [bind]. destruct o.
      + exists []. split; [reflexivity|]. constructor. right. now exists g.
      + destruct Hc as [Hc|Hc]; [discriminate Hc|]. rewrite (element_item _ _ _ _ _ Hc Lz). cbn [bind]. rewrite Hl.
        eexists. split; [apply put_written; [exact PO|apply (li_root _ _ _ _ _ Li)]|]. cbn [dict_set]. apply b_root. now exists g.
    - destruct HF as (Ho & Hc & _). rewrite (element_item _ _ _ _ _ Ho Lz). cbn [bind]. rewrite (element_item _ _ _ _ _ Hc Lz). cbn [bind].
      destruct (mk_pair m 0 P_fake) as [sf pf] eqn:Ep. pose proof (mo_pair _ _ _ MO 0%nat P_fake) as O. rewrite Ep in O. cbn [fst snd] in O.
      assert (cert_read w top) as Rt.
      { destruct new as [|c new]; cbn [hd] in Hh; subst; [apply (li_root _ _ _ _ _ Li)|apply (li_new _ _ _ _ _ Li 0%nat top eq_refl)]. }
      destruct (mo_cert _ _ _ MO 0%nat P_fake pf (lit "fake root " ++ fmt_d (Z.of_nat 0)) (w_serial w top) sf None sf pf O O) as (c & Mc & Rc & Sc & Kc & _).
      { right. split; [exact (TP eq_refl)|]. now exists top. }
      rewrite Mc. cbn [bind]. eexists. split; [now apply put_written|]. cbn [dict_set]. rewrite Sc. apply b_fake; auto.
      + split; [exact Rc|]. right. eauto 8.
      + now rewrite Kc, Ep. }
  exists top, below, root, new, f, priv', serial, b0. split; [|auto].
  unfold make_device. rewrite Es. cbn [bind]. cbv zeta. rewrite E. cbn [bind]. rewrite Mu, orb_true_r.
  match goal with |- bind ?t _ = _ => assert (t = Ok b0) as -> by exact Eb end. cbn [bind].
  rewrite (element_item _ _ _ _ _ Ns Lz). reflexivity.
Qed.

Lemma base_fault top below root new f b0 ks : links top below root new f -> base top root b0 ->
  match fl with F_untrusted => (f < 1 \/ Z.of_nat n < f)%Z | F_broken g => f = Z.of_nat g /\ (1 <= g <= n)%nat | F_collision => True end ->
  (forall z, getCert ks (fmt_x (Z.abs z)) = getCert b0 (fmt_x (Z.abs z))) ->
  exists e, reported w m closed mat n fl e /\ cert_fault w ks top below e.
Proof using FS MO HO.
  intros Li B Lf G. pose proof (fun k c => link_at top below root new f k c Li) as LA. pose proof FS as FS'. pose proof (li_length _ _ _ _ _ Li) as Ln.
  assert (forall k a b, nth_error (top :: below) k = Some a -> nth_error (top :: below) (S k) = Some b -> (S k <= n)%nat) as Bd.
  { intros k a b _ Hb. assert (S k < List.length (top :: below))%nat as H by (apply nth_error_Some; now rewrite Hb). rewrite (li_all _ _ _ _ _ Li), app_length in H. cbn [List.length] in H. lia. }
  destruct fl as [|g|] eqn:Efl.
  - destruct (LA 0%nat top eq_refl) as (z & Hz & Ez). exists (UntrustedCertificate (key_id w top)). split; [exists z; split; [exact Hz|now rewrite Ez]|].
    apply cf_untrusted.
    + intros x k _ S. unfold stored in S. rewrite G in S. inversion B as [H E0|[h H] E0|c H R1 R2 R3 R4 E0]; [subst b0; discriminate S|congruence|congruence].
    + apply signed_all. intros k a b Ha Hb. apply (li_signed _ _ _ _ _ Li k a b Ha Hb). specialize (Bd k a b Ha Hb). lia.
  - destruct Lf as [-> Lg]. assert (List.length (top :: below) = S n) as Lt by (rewrite (li_all _ _ _ _ _ Li), app_length; cbn [List.length]; lia).
    destruct (nth_error (top :: below) (g - 1)) as [a|] eqn:Ha; [|apply nth_error_None in Ha; lia].
    destruct (nth_error (top :: below) g) as [b|] eqn:Hb; [|apply nth_error_None in Hb; lia].
    destruct (LA _ a Ha) as (z & Hz & Ez). destruct (LA _ b Hb) as (z' & Hz' & Ez').
    exists (CertificateChainBroken (key_id w a) (key_id w b)). split; [exists z, z'; split; [exact Hz|split; [exact Hz'|now rewrite Ez, Ez']]|].
    destruct (nth_error_split _ _ Ha) as (l1 & l2 & El & L1). assert (exists l3, l2 = b :: l3) as [l3 ->].
    { rewrite El, nth_error_app2, L1 in Hb by lia. replace (g - (g - 1))%nat with 1%nat in Hb by lia. cbn [nth_error] in Hb. destruct l2 as [|y l2]; [discriminate Hb|]. apply Some_inj in Hb. subst y. now exists l2. }
    assert (forall k x, nth_error (l1 ++ [a]) k = Some x -> (k < g)%nat /\ nth_error (top :: below) k = Some x) as Sub.
    { intros k x Hk. assert (k < List.length (l1 ++ [a]))%nat as H by (apply nth_error_Some; now rewrite Hk). split; [rewrite app_length in H; cbn [List.length] in H; lia|].
      replace (top :: below) with ((l1 ++ [a]) ++ b :: l3) by (rewrite <- app_assoc; now symmetry). rewrite nth_error_app1 by exact H. exact Hk. }
    apply (cf_broken w ks top below l1 a b l3 El).
    + intros x k Hx Sk. apply In_nth_error in Hx as [j Hj]. destruct (Sub j x Hj) as [Lj Hj']. rewrite (li_all _ _ _ _ _ Li), nth_error_app1 in Hj' by lia.
      destruct (li_new _ _ _ _ _ Li j x Hj') as (_ & Sx & _). unfold stored in Sk. rewrite G in Sk. inversion B as [H E0|H E0|c H _ _ _ _ E0]; subst b0; [discriminate Sk| |congruence].
      unfold getCert in Sk. cbn [dict_get] in Sk. match type of Sk with context [str_eqb ?u ?v] => destruct (str_eqb u v) eqn:E1 end; [|discriminate Sk].
      apply str_eqb_eq, fmt_x_inj in E1. rewrite Sx in E1. pose proof (mo_serial _ _ _ MO 0%nat (P_chain (S j))) as Pz.
      destruct FS' as (_ & _ & _ & _ & CL & _ & (_ & A2 & _) & _). unfold chain_length in CL. destruct (li_root _ _ _ _ _ Li) as (_ & _ & _ & R).
      destruct (bool_dec closed true) as [Ec|Ec]; [|apply not_true_is_false in Ec]; rewrite Ec in CL, R; [lia|]. destruct CL as (len & El' & En).
      apply (A2 Ec root 0%nat (P_chain (S j))); [exists mat; split; [now left|exact R]| |lia].
      split; [cbn [List.length]; lia|]. split; [exact Ec|]. exists len. split; [exact El'|lia].
    + apply signed_all. intros k x y Hx Hy. destruct (Sub _ _ Hx) as [_ Hx']. destruct (Sub _ _ Hy) as [L Hy']. apply (li_signed _ _ _ _ _ Li k x y Hx' Hy'). lia.
    + intros H. replace g with (S (g - 1)) in Hb by lia. apply (li_signed _ _ _ _ _ Li _ a b Ha Hb) in H. lia.
  - destruct (LA 0%nat top eq_refl) as (z & Hz & Ez). inversion B as [[H|[h H]] E0|[h H] E0|c H Rc Ac Sc Kc E0]; try congruence. subst b0.
    destruct (hd_of new root top below (li_all _ _ _ _ _ Li)) as [Hh _].
    assert (at_hand w m mat top /\ w_cert_pubkey w top <> w_cert_pubkey w c) as [At Kt].
    { rewrite Kc. destruct FS' as (_ & _ & _ & _ & _ & _ & _ & _ & KA & _). destruct new as [|x new]; cbn [hd] in Hh; subst.
      - destruct (li_root _ _ _ _ _ Li) as (_ & A & M & _). split; [exact A|]. now apply KA.
      - destruct (li_new _ _ _ _ _ Li 0%nat top eq_refl) as (_ & _ & Kx & A). split; [exact A|]. rewrite Kx. intros X.
        apply (proj1 KA) in X; [discriminate X|cbn [List.length] in Ln; cbn [used_purpose]; lia|exact Logic.I]. }
    assert (~ same_fingerprint w c top) as NF.
    { destruct FS' as (_ & _ & _ & _ & _ & _ & _ & _ & _ & FP). destruct (FP eq_refl) as [F _]. intros S. apply Kt. symmetry. now apply F. }
    exists (CertSerialCollision (key_id w top) (certFingerprint w top) (certFingerprint w c)). split.
    + exists z, (certFingerprint w top), (certFingerprint w c). split; [exact Hz|]. split; [|now rewrite Ez]. intros X. symmetry in X. revert X. now apply fingerprint_neq.
    + apply (cf_collision w ks top below [] top below c eq_refl); [intros x k []| | |exact NF].
      * apply signed_in_turn_one.
      * unfold stored. rewrite G. unfold getCert. cbn [dict_get]. now rewrite str_eqb_refl.
Qed.

Theorem flawed_store : exists d ks e top below, make_devices w m sp closed 0 [mat] [] = Ok ([d], ks)
  /\ dv_cert d = Some top /\ dv_chain d = below /\ reported w m closed mat n fl e /\ cert_fault w ks top below e
  /\ (forall o, readStoreFromJson w (writeStoreToJson w ks o) = Ok ks)
  /\ (dv_zda d = lit "AT0" <-> closed = true)
  /\ exists ks', device_fit w ks' true d.
Proof using FS MO PO KO HO.
  destruct flawed_device as (top & below & root & new & f & s & serial & b0 & E & Li & B & De & Lf).
  set (d := Device _ _ _ _ _) in E, De. set (ks := if closed || ts_public sp then _ else _) in E.
  assert (forall z, getCert ks (fmt_x (Z.abs z)) = getCert b0 (fmt_x (Z.abs z))) as G.
  { intros z. unfold ks. case (closed || ts_public sp); [apply getCert_key|reflexivity]. }
  destruct (base_fault _ _ _ _ _ b0 ks Li B Lf G) as (e & Re & CF).
  exists d, ks, e, top, below. split; [cbn [make_devices]; rewrite E; reflexivity|]. split; [reflexivity|]. split; [reflexivity|]. split; [exact Re|]. split; [exact CF|].
  assert (cert_read w top) as Rt.
  { destruct (hd_of new root top below (li_all _ _ _ _ _ Li)) as [Hh _]. destruct new as [|c new']; cbn [hd] in Hh; subst; [apply (li_root _ _ _ _ _ Li)|apply (li_new _ _ _ _ _ Li 0%nat top eq_refl)]. }
  assert (ts_number (mended sp) = Z.of_nat (List.length [mat])) as Nu by (destruct FS as (_ & H & _); exact H).
  assert (ts_multi (mended sp) = true) as Mu by (destruct FS as (_ & _ & H & _); exact H).
  destruct (hd_of new root top below (li_all _ _ _ _ _ Li)) as [Hh _].
  split; [|split].
  - intros o. unfold readStoreFromJson, writeStoreToJson. cbn [dict_get]. rewrite str_eqb_refl. apply (read_all w ks [] PO).
    + assert (Forall (entry_ok w) b0) as Fb.
      { inversion B as [H E0|H E0|c H Rc Ac Sc Kc E0]; [constructor| |]; (constructor; [|constructor]); unfold entry_ok; cbn [fst snd root_entry kt_cert kt_key];
          (split; [eexists; split; [|reflexivity]; lia|]); (split; [reflexivity|]); [apply (li_root _ _ _ _ _ Li)|exact Rc]. }
      unfold ks. case (closed || ts_public sp); [|exact Fb]. unfold putKey.
      assert (entry_ok w (device_kid (ts_company sp) 0, KeyTuple (w_cert_pubkey w top) None)) as Ek by exact (KO top Rt).
      clear -Fb Ek B. assert (forall z, str_eqb (fmt_x (Z.abs z)) (device_kid (ts_company sp) 0) = false) as Nk.
      { intros z. apply str_eqb_neq. intros X. symmetry in X. revert X. apply kid_not_hex. lia. }
      inversion B as [H E0|H E0|c H Rc Ac Sc Kc E0]; subst b0; cbn [dict_set]; rewrite ?Nk.
      * constructor; [exact Ek|constructor].
      * constructor; [exact (Forall_inv Fb)|constructor; [exact Ek|constructor]].
      * constructor; [exact (Forall_inv Fb)|constructor; [exact Ek|constructor]].
    + cbn [app]. assert (NoDup (map fst b0)) as Nb by (inversion B; cbn [map fst]; repeat constructor; intros []).
      unfold ks. case (closed || ts_public sp); [now apply nodup_set|exact Nb].
  - cbn [d dv_zda]. destruct (bool_dec closed true) as [Ec|Ec]; [|apply not_true_is_false in Ec]; rewrite Ec; [now split|].
    split; [|discriminate]. destruct (zda_digits _ (mo_zda _ _ _ MO 0%nat)) as (c & r & -> & Lc & _).
    change (lit "AT0") with [65; 84; 48]. change (lit "AT") with [65; 84]. cbn [app]. intros [= -> ->]. lia.
  - exists [(fmt_x (Z.abs (w_serial w top)), root_entry w top)]. split.
    + match type of (filled_next w own m (mended sp) closed [mat] MO mended_ok [] [] (0%nat, root, top)) with _ -> ?P -> _ => assert P as Ro end.
      { constructor; [|constructor]. pose proof (li_root _ _ _ _ _ Li) as (Rr & _ & _ & R). split; [exact Rr|]. split; [exact Rt|].
        destruct (bool_dec closed true) as [Ec|Ec]; [|apply not_true_is_false in Ec]; rewrite Ec in R |- *; [|exists mat; split; [now left|exact R]].
        split; [|exact R]. split; [cbn [List.length]; lia|reflexivity]. }
      intros sys Es. split; [exact (described_ok w own m (mended sp) closed [mat] MO mended_ok _ _ _ _ _ sys De Es)|].
      assert (verifier_of [(fmt_x (Z.abs (w_serial w top)), root_entry w top)] (device_certificate true d) = verifier_of (stored_key w (mended sp) closed (stored_root w (mended sp) closed [] root) 0 top) (device_certificate (ts_multi (mended sp)) d)) as -> by (rewrite Mu; reflexivity).
      assert (filled_with w (mended sp) closed ([] ++ [(0%nat, root, top)]) (stored_key w (mended sp) closed (stored_root w (mended sp) closed [] root) 0 top)) as F.
      { apply (filled_next w own m (mended sp) closed [mat] MO mended_ok [] [] (0%nat, root, top)); [constructor; [intros _ x []|intros _ x []|discriminate|constructor]| |intros y []]. exact Ro. }
      apply (described_known w own m (mended sp) closed [mat] MO mended_ok 0%nat mat d root new _ _ sys De eq_refl F Ro); [left; now rewrite Hh|exact Es].
    + intros _. split.
      * exists top. split; [reflexivity|]. exists [], top, below. split; [reflexivity|]. split; [exists top; split; [|reflexivity]|split; [apply signed_in_turn_one|intros y k []]].
        unfold stored, getCert. cbn [dict_get]. now rewrite str_eqb_refl.
      * intros c Hc. assert (In c (new ++ [root])) as Hin.
        { rewrite <- (li_all _ _ _ _ _ Li). destruct Hc as [E1|Hc]; [left; now injection E1|now right]. }
        assert (cert_read w c) as [t Ht].
        { apply in_app_or in Hin as [Hin|[<-|[]]]; [|apply (li_root _ _ _ _ _ Li)]. destruct (In_nth_error _ _ Hin) as [j Hj]. apply (li_new _ _ _ _ _ Li j c Hj). }
        pose proof (reload_cert w c t PO Ht) as L. exists (addPEMCertHeaders (exportCertToPEM w c)). unfold parseKeyStoreCert in L.
        destruct (loadCert w (addPEMCertHeaders (exportCertToPEM w c))) as [c'|e']; cbn [catch] in L; [exact L|]. destruct (value_error e'); discriminate L.
Qed.
End Flaw.

(** The test passes exactly when the exception that is due is expected. *)
Theorem flawed_test w own m sch b sp pub priv closed n fl key :
  hash_ok w -> aes_ok w -> pem_ok w -> cert_keys_ok w -> maker_ok w own m ->
  flawed_setup w own m sp closed (pub, priv) n fl ->
  loadB64Key (ts_aes sp) = Ok key -> List.length key = 32%nat -> identifier (ts_id sp) -> (5 <= counter_size sp None <= 16)%nat ->
  instructions_ok w closed 1 (counter_size sp None) b (ts_instrs sp) -> (forall i, isolated (sch i)) ->
  exists e, reported w m closed (pub, priv) n fl e
    /\ forall say random x, testVerify_full w m say sch random x b sp pub priv closed = Ok (R_OK, None) <-> expects say x (Some e).
Proof.
  intros HO AO PO KO MO FS K Lk Id Sz Io Iso.
  destruct (flawed_store w own m sp closed (pub, priv) n fl HO MO PO KO FS) as (d & ks & e & top & below & D & Dc & Dh & Re & CF & S & Z & ks' & Fit).
  pose proof FS as (_ & Nu & Mu & _). exists e. split; [exact Re|]. intros say random x.
  rewrite (full_spec w m say sch random x b sp pub priv closed key [d] ks); [|lia|exact K|rewrite Nu; exact D|exact S]. rewrite Mu.
  destruct (rules_of_instructions w closed (counter_size sp None) b ks' true [d] (ts_instrs sp) Io) as [R Ne]; [apply Forall_cons; [exact Fit|apply Forall_nil]|apply Forall_cons; [exact Z|apply Forall_nil]|].
  destruct Io as (_ & _ & (i0 & l & El & _) & _). rewrite El in R, Ne |- *.
  assert (nth_error [d] (in_dev i0) = Some d) as Hd.
  { destruct R as (As & _). apply Forall2_cons_iff in As as [(d' & Hd & _) _] || (inversion As as [|? ? ? ? A1]; destruct A1 as (d' & Hd & _)).
    destruct (in_dev i0) as [|[|]]; [reflexivity|discriminate Hd|discriminate Hd]. }
  rewrite <- Dh in CF.
  exact (first_test w say sch random x ks ks' b (ts_id sp) key (counter_size sp None) [d] i0 l d top _ e HO AO PO Iso Id Lk Sz R Ne Hd Dc CF).
Qed.
