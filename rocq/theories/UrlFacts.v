(** URL hashes (C40). *)
From Coq Require Import Lia ZifyClasses ZifyN ZifyNat ZifyBool.
From Verif Require Import PyBase World Regex Codec PyFloat Algo Receipt Json KeyStore VerifyReceipt ListFacts CodecFacts
  SpecReceipt ReceiptFacts RoundTrip SpecUrl Url KeyFacts.
Open Scope N_scope.
Open Scope py_scope.

Lemma url_class_spec c : url_class c = true <-> url_safe c.
Proof. unfold url_class, url_safe, is_AZ, is_az, is_09, c_us, c_dash. lia. Qed.

(** ** The hash of a receipt *)

Lemma nopad_8 b : List.length b = 8%nat -> hash_text (b64url_nopad b).
Proof.
  intros L. split.
  - destruct (urlsafe_shape b) as (d & k & E & _ & _ & _ & K & ->). rewrite L in K. change ((3 - 8 mod 3) mod 3)%nat with 1%nat in K. subst k.
    assert (List.length (urlsafe_b64encode b) = 12%nat) as L12.
    { unfold urlsafe_b64encode. rewrite map_length. do 8 (destruct b as [|? b]; [discriminate|]). destruct b; [reflexivity|discriminate]. }
    rewrite E, app_length in L12. cbn [repeat List.length] in L12. unfold str, bytes in *. lia.
  - pose proof (b64url_nopad_chars b) as C. apply Forall_forall. rewrite forallb_forall in C. intros x Hx. apply C in Hx.
    unfold is_b64url_char, is_az, is_AZ, is_09, c_us, c_dash in Hx. unfold url_safe. lia.
Qed.

Theorem hash_shape w r alg h : hash_ok w -> toURLHash w r alg = Ok h -> hash_text h.
Proof.
  intros K. unfold toURLHash. intros H. apply bind_Ok in H as (qr & _ & H). destruct (known_alg alg); [|discriminate].
  apply bind_Ok in H as (b & Hb & H). apply Ok_inj in H. subst h. apply nopad_8.
  unfold r1_hash in Hb. apply bind_Ok in Hb as (u & _ & Hb). apply Ok_inj in Hb. subst b.
  destruct (K u) as [L _]. rewrite firstn_length, L. reflexivity.
Qed.

Theorem hash_accepted w r alg h : toURLHash w r alg = Ok h ->
  verifyURLHash w r alg h = Ok tt
  /\ (forall h', h' <> h -> h' <> [] -> verifyURLHash w r alg h' = Err (InvalidURLHash h'))
  /\ (hash_ok w -> verifyURLHash w r alg [] = Err (InvalidURLHash (r_receiptId r))).
Proof.
  intros H. assert (forall h', verifyURLHash w r alg h' = if str_eqb h h' then Ok tt else Err (InvalidURLHash (if nonempty h' then h' else r_receiptId r))) as E.
  { intros h'. unfold toURLHash in H. unfold verifyURLHash. apply bind_Ok in H as (qr & -> & H). cbn [bind].
    destruct (known_alg alg); [|discriminate]. apply bind_Ok in H as (b & -> & H). apply Ok_inj in H. subst h. reflexivity. }
  split; [now rewrite E, str_eqb_refl|]. split.
  - intros h' N N'. rewrite E. destruct (str_eqb h h') eqn:X; [apply str_eqb_eq in X; congruence|]. now destruct h'.
  - intros K. rewrite E. destruct (hash_shape w r alg h K H) as [L _]. destruct h; [discriminate|reflexivity].
Qed.

Theorem hash_exact w r alg h : known_alg alg = true -> verifyURLHash w r alg h = Ok tt -> toURLHash w r alg = Ok h.
Proof.
  intros A. unfold verifyURLHash, toURLHash. intros H. apply bind_Ok in H as (qr & -> & H). cbn [bind]. rewrite A.
  apply bind_Ok in H as (b & -> & H). cbn [bind]. destruct (str_eqb (b64url_nopad (firstn 8 b)) h) eqn:E; [|discriminate].
  apply str_eqb_eq in E. now subst.
Qed.

(** Every receipt read from a JWS has a hash. *)
Theorem hash_exists w s r alg : fromJWSString w s = Ok (r, alg) -> exists h, toURLHash w r alg = Ok h.
Proof.
  intros H. pose proof H as H0. apply jws_to_qr in H as (q & b & _ & Q & _).
  apply fromJWSString_spec in H0 as (-> & f & sg & J & I). unfold toURLHash. rewrite Q. cbn [bind].
  change (known_alg (lit "R1")) with true. cbn iota. unfold r1_hash.
  assert (encodable q) as [u U].
  { pose proof (jws_text_encodable _ _ _ _ J) as En. destruct J as (h & p & hb & pb & gb & -> & _ & _ & _ & _ & G & _).
    pose proof (toBasicCode_spec w f sg r gb I En G) as Q'. rewrite Q in Q'. apply Ok_inj in Q'. subst q.
    apply encodable_app. split; [exact En|]. apply encodable_ascii. apply Forall_app. split; [repeat constructor|apply b64encode_ascii]. }
  rewrite U. cbn [bind]. eauto.
Qed.

(** ** Finding the hash *)

Definition edge (prev : bool) (pre : str) : Prop :=
  (pre = [] -> prev = false) /\ forall p c, pre = p ++ [c] -> ~ url_safe c.
Definition occ (prev : bool) (s pre h post : str) : Prop :=
  s = pre ++ h ++ post /\ hash_text h /\ edge prev pre /\ (forall p c, post = c :: p -> ~ url_safe c).

Lemma find_skip k : forall s, (k <= List.length s)%nat -> Forall url_safe (firstn k s) ->
  find_hashes k true s = find_hashes 0 true s.
Proof.
  induction k as [|k IH]; intros s L F; [reflexivity|]. destruct s as [|c s]; [cbn in L; lia|].
  cbn [firstn] in F. apply Forall_cons_iff in F as [Hc F]. apply url_class_spec in Hc. cbn [List.length] in L.
  cbn [find_hashes]. unfold hash_here. cbn [negb andb]. rewrite Hc. apply IH; [lia|exact F].
Qed.

Lemma hash_here_spec prev s : hash_here prev s = true <-> occ prev s [] (firstn 11 s) (skipn 11 s).
Proof.
  unfold hash_here, occ, hash_text, edge. rewrite !andb_true_iff, !negb_true_iff, Nat.eqb_eq. split.
  - intros (((P & L) & F) & S). cbn [app]. split; [now rewrite firstn_skipn|]. split.
    + split; [exact L|]. apply Forall_forall. rewrite forallb_forall in F. intros x Hx. now apply url_class_spec, F.
    + split; [split; [auto|]; intros p c E; destruct p; discriminate|].
      intros p c E. rewrite E in S. cbn in S. rewrite <- url_class_spec. congruence.
  - intros (_ & (L & F) & (P & _) & S). repeat split; auto.
    + apply forallb_forall. rewrite Forall_forall in F. intros x Hx. now apply url_class_spec, F.
    + destruct (skipn 11 s) as [|c p]; [reflexivity|]. cbn. destruct (url_class c) eqn:E; [|reflexivity].
      apply url_class_spec in E. exfalso. now apply (S p c).
Qed.

Lemma occ_head prev s h post : occ prev s [] h post -> h = firstn 11 s /\ post = skipn 11 s /\ hash_here prev s = true.
Proof.
  intros O. assert (h = firstn 11 s /\ post = skipn 11 s) as [-> ->].
  { destruct O as (-> & (L & _) & _). cbn [app]. rewrite <- L. rewrite firstn_app, skipn_app, Nat.sub_diag.
    cbn [firstn skipn]. rewrite firstn_all, skipn_all, app_nil_r. now split. }
  split; [reflexivity|]. split; [reflexivity|]. now apply hash_here_spec.
Qed.

Lemma occ_cons prev c s pre h post : occ prev (c :: s) (c :: pre) h post <-> occ (url_class c) s pre h post.
Proof.
  unfold occ, edge. split.
  - intros (E & H & (_ & P) & S). injection E as E. split; [exact E|]. split; [exact H|]. split; [split|exact S].
    + intros ->. destruct (url_class c) eqn:U; [|reflexivity]. apply url_class_spec in U. exfalso. now apply (P [] c).
    + intros p x ->. now apply (P (c :: p) x).
  - intros (E & H & (P0 & P) & S). split; [cbn [app]; now f_equal|]. split; [exact H|]. split; [split|exact S]; [discriminate|].
    intros p x X. destruct p as [|y p].
    + injection X as -> ->. rewrite <- url_class_spec. rewrite P0; [discriminate|reflexivity].
    + injection X as -> ->. now apply (P p x).
Qed.

Lemma last_cons x l : last_of (x :: l) = match last_of l with Some y => Some y | None => Some x end.
Proof.
  destruct l as [|y l]; [reflexivity|]. change (last_of (x :: y :: l)) with (last_of (y :: l)).
  enough (exists z, last_of (y :: l) = Some z) as [z ->] by reflexivity.
  revert y. induction l as [|a l IH]; intros y; [now exists y|]. exact (IH a).
Qed.

Lemma find_spec s : forall prev,
  match last_of (find_hashes 0 prev s) with
  | Some h => exists pre post, occ prev s pre h post
      /\ forall pre' h' post', occ prev s pre' h' post' -> (List.length pre' <= List.length pre)%nat
  | None => forall pre h post, ~ occ prev s pre h post
  end.
Proof.
  induction s as [|c s IH]; intros prev.
  - cbn [find_hashes last_of]. intros pre h post (E & (L & _) & _). symmetry in E. apply app_eq_nil in E as [_ E].
    apply app_eq_nil in E as [-> _]. discriminate.
  - specialize (IH (url_class c)).
    assert (find_hashes 0 prev (c :: s) =
      (if hash_here prev (c :: s) then [firstn 11 (c :: s)] else []) ++ find_hashes 0 (url_class c) s) as E.
    { cbn [find_hashes]. destruct (hash_here prev (c :: s)) eqn:H; [|reflexivity]. cbn [app]. f_equal.
      apply hash_here_spec in H as (_ & (L & F) & _). cbn [firstn] in F. apply Forall_cons_iff in F as [Hc F].
      apply url_class_spec in Hc. rewrite Hc. apply find_skip; [|exact F]. rewrite firstn_length in L. cbn [List.length] in L. lia. }
    rewrite E. destruct (hash_here prev (c :: s)) eqn:H.
    + cbn [app]. rewrite last_cons. destruct (last_of (find_hashes 0 (url_class c) s)) as [h|].
      * destruct IH as (pre & post & O & M). exists (c :: pre), post. split; [now apply occ_cons|].
        intros pre' h' post' O'. destruct pre' as [|x pre']; [cbn; lia|].
        assert (x = c) as -> by (destruct O' as (X & _); now injection X as ->). apply occ_cons in O'. apply M in O'. cbn. lia.
      * exists [], (skipn 11 (c :: s)). split; [now apply hash_here_spec|].
        intros pre' h' post' O'. destruct pre' as [|x pre']; [cbn; lia|].
        assert (x = c) as -> by (destruct O' as (X & _); now injection X as ->). apply occ_cons in O'. now apply IH in O'.
    + cbn [app]. destruct (last_of (find_hashes 0 (url_class c) s)) as [h|].
      * destruct IH as (pre & post & O & M). exists (c :: pre), post. split; [now apply occ_cons|].
        intros pre' h' post' O'. destruct pre' as [|x pre']; [cbn; lia|].
        assert (x = c) as -> by (destruct O' as (X & _); now injection X as ->). apply occ_cons in O'. apply M in O'. cbn. lia.
      * intros pre h post O. destruct pre as [|x pre].
        -- apply occ_head in O as (_ & _ & O). congruence.
        -- assert (x = c) as -> by (destruct O as (X & _); now injection X as ->). apply occ_cons in O. now apply IH in O.
Qed.

Lemma occ_word s pre h post : occ false s pre h post <-> word_at s pre h post.
Proof. unfold occ, word_at, edge. intuition. Qed.

Theorem url_plain url : ~ In c_hash url ->
  (forall h, getURLHashFromURL url = Some h <-> last_word url h)
  /\ (getURLHashFromURL url = None <-> forall pre h post, ~ word_at url pre h post).
Proof.
  intros N. unfold getURLHashFromURL. rewrite split_char_nosep by exact N. pose proof (find_spec url false) as F.
  destruct (last_of (find_hashes 0 false url)) as [h|].
  - destruct F as (pre & post & O & M). apply occ_word in O. split.
    + intros h'. split.
      * intros X. apply Some_inj in X. subst h'. exists pre, post. split; [exact O|].
        intros pre' h' post' O'. apply occ_word in O'. now apply M in O'.
      * intros (pre' & post' & O' & M'). pose proof (M' _ _ _ O) as L1. apply occ_word in O'. pose proof (M _ _ _ O') as L2.
        apply occ_word in O'. destruct O as (E & (L & _) & _), O' as (E' & (L' & _) & _). rewrite E' in E.
        assert (pre' = pre /\ h' ++ post' = h ++ post) as [-> X].
        { assert (List.length pre' = List.length pre) as LL by lia. clear -E LL. revert pre LL E.
          induction pre' as [|a pre' IH]; intros [|b pre] LL E; try discriminate; [now split|].
          injection E as -> E. destruct (IH pre) as [-> ?]; [now injection LL|exact E|]. now split. }
        f_equal. apply (f_equal (firstn 11)) in X. rewrite <- L' in X at 1. rewrite <- L in X.
        rewrite !firstn_app, !Nat.sub_diag in X. cbn [firstn] in X. rewrite !firstn_all, !app_nil_r in X. now symmetry.
    + split; [discriminate|]. intros X. now apply X in O.
  - split.
    + intros h. split; [discriminate|]. intros (pre & post & O & _). apply occ_word in O. now apply F in O.
    + split; [|reflexivity]. intros _ pre h post O. apply occ_word in O. now apply F in O.
Qed.

Theorem url_fragment base h rest : ~ In c_hash base -> ~ In c_hash h -> rest = [] \/ (exists r, rest = c_hash :: r) ->
  getURLHashFromURL (base ++ c_hash :: h ++ rest) = Some h.
Proof.
  intros N N' R. unfold getURLHashFromURL. rewrite split_char_app by exact N.
  destruct R as [-> |[r ->]].
  - now rewrite app_nil_r, split_char_nosep.
  - now rewrite split_char_app.
Qed.

Theorem url_segment base c h : ~ In c_hash (base ++ [c]) -> ~ url_safe c -> hash_text h ->
  getURLHashFromURL (base ++ c :: h) = Some h.
Proof.
  intros N U H. assert (~ In c_hash h) as Nh.
  { intros X. destruct H as [_ F]. rewrite Forall_forall in F. apply F in X. unfold url_safe, c_hash in X. lia. }
  apply url_plain.
  - intros X. apply in_app_or in X as [X|[X|X]].
    + apply N. apply in_or_app. now left.
    + apply N. apply in_or_app. right. now left.
    + contradiction.
  - exists (base ++ [c]), []. split.
    + split; [rewrite app_nil_r, <- app_assoc; reflexivity|]. split; [exact H|]. split; [|discriminate].
      intros p x E. apply app_inj_tail in E as [_ <-]. exact U.
    + intros pre' h' post' (E & (L & _) & _). apply (f_equal (fun l => List.length l)) in E. destruct H as [L' _]. unfold str in *.
      rewrite !app_length in *. cbn [List.length] in *. lia.
Qed.

(** ** Hosting and verifying *)

Lemma host_content w : forall lines store store', host_receipts w store lines = Ok store' ->
  forall h, (exists i l r alg, nth_error lines i = Some l /\ fromJWSString w (strip (char_isspace w) l) = Ok (r, alg)
              /\ toURLHash w r alg = Ok h /\ exists code, toBasicCode r alg = Ok code /\ dict_get store' h = Some code)
            \/ dict_get store' h = dict_get store h.
Proof.
  induction lines as [|l lines IH]; intros store store' H h.
  - cbn in H. apply Ok_inj in H. subst. now right.
  - cbn [host_receipts] in H. apply bind_Ok in H as ([r alg] & P & H). cbn [fst snd] in H. apply bind_Ok in H as (h1 & Hh & H).
    apply bind_Ok in H as (code & Hc & H). destruct (IH _ _ H h) as [(i & l' & r' & alg' & E)|E].
    + left. now exists (S i), l', r', alg'.
    + rewrite E, get_set. destruct (str_eqb h1 h) eqn:X; [|now right]. apply str_eqb_eq in X. subst h1.
      left. exists 0%nat, l, r, alg. split; [reflexivity|]. split; [exact P|]. split; [exact Hh|]. exists code.
      split; [exact Hc|reflexivity].
Qed.

Lemma host_present w : forall lines store store', host_receipts w store lines = Ok store' ->
  forall h, (dict_get store h <> None \/ exists l r alg, In l lines /\ fromJWSString w (strip (char_isspace w) l) = Ok (r, alg)
              /\ toURLHash w r alg = Ok h) -> dict_get store' h <> None.
Proof.
  induction lines as [|l lines IH]; intros store store' H h P.
  - cbn in H. apply Ok_inj in H. subst. destruct P as [P|(l & _ & _ & [] & _)]. exact P.
  - cbn [host_receipts] in H. apply bind_Ok in H as ([r alg] & J & H). cbn [fst snd] in H. apply bind_Ok in H as (h1 & Hh & H).
    apply bind_Ok in H as (code & Hc & H). apply (IH _ _ H). rewrite get_set.
    destruct P as [P|(l' & r' & alg' & [<-|I] & J' & Hh')].
    + left. destruct (str_eqb h1 h); [discriminate|exact P].
    + rewrite J in J'. apply Ok_inj in J'. injection J' as -> ->. rewrite Hh in Hh'. apply Ok_inj in Hh'. subst h1.
      left. now rewrite str_eqb_refl.
    + right. now exists l', r', alg'.
Qed.

(** The basic code of a receipt read from a JWS is also that of the receipt read from this code. *)
Lemma code_again w s r alg code r' alg' : fromJWSString w s = Ok (r, alg) -> toBasicCode r alg = Ok code ->
  fromBasicCode w code = Ok (r', alg') -> alg' = alg /\ toBasicCode r' alg' = Ok code.
Proof.
  intros J C B. pose proof J as J0. apply jws_to_qr in J as (q & b & (sg & Sg & G) & Q & R). rewrite C in Q. apply Ok_inj in Q. subst q.
  rewrite B in R. apply Ok_inj in R. injection R as -> ->. split; [reflexivity|].
  apply fromJWSString_spec in J0 as (-> & f & sg' & J & I).
  assert (sg' = sg) as ->. { destruct I as (_ & S & _). rewrite S in Sg. now injection Sg as ->. }
  pose proof (jws_text_encodable _ _ _ _ J) as En. rewrite (toBasicCode_spec w f sg r b I En G) in C.
  rewrite <- C. apply (toBasicCode_spec w f (b64url_nopad b)).
  - eapply is_receipt_sig; exact I.
  - exact En.
  - apply seg_nopad. now apply seg_decodes_bytes in G.
Qed.

Lemma hash_of_code w r r' alg code : toBasicCode r alg = Ok code -> toBasicCode r' alg = Ok code ->
  known_alg alg = true -> toURLHash w r' alg = toURLHash w r alg.
Proof. intros C C' A. unfold toURLHash. rewrite C, C'. cbn [bind]. now rewrite A. Qed.

Theorem hosted w lines store l r alg h :
  hash_ok w -> host_receipts w [] lines = Ok store -> In l lines ->
  fromJWSString w (strip (char_isspace w) l) = Ok (r, alg) -> toURLHash w r alg = Ok h ->
  exists code, dict_get store h = Some code
    /\ forall v base c fetch x, ~ In c_hash (base ++ [c]) -> ~ url_safe c -> fetch (base ++ c :: h) = Ok code ->
       verifyBasicCode w v code = Ok x -> getAndVerifyReceiptURL w v fetch (base ++ c :: h) = Ok tt.
Proof.
  intros K H I J Hh.
  assert (dict_get store h <> None) as P.
  { apply (host_present w lines [] store H). right. now exists l, r, alg. }
  destruct (host_content w lines [] store H h) as [(i & l' & r' & alg' & _ & J' & Hh' & code & C & G)|G]; [|contradiction].
  exists code. split; [exact G|]. intros v base c fetch x N U F V. unfold getAndVerifyReceiptURL. rewrite F. cbn [bind]. rewrite V. cbn [bind].
  rewrite url_segment; [|exact N|exact U|now apply (hash_shape w r alg)].
  unfold verifyBasicCode in V. apply bind_Ok in V as ([r2 alg2] & B & V). cbn [fst snd] in V.
  destruct (code_again _ _ _ _ _ _ _ J' C B) as [-> C2].
  assert (x = (r2, alg')) as ->.
  { unfold verify in V. destruct (known_alg alg'); [|discriminate]. apply bind_Ok in V as (k & _ & V).
    apply bind_Ok in V as (b & _ & V). destruct b.
    - apply bind_Ok in V as (d & _ & V). apply bind_Ok in V as (rv & _ & V). destruct (negb rv && isNull r2); discriminate.
    - destruct k as [k|]; [|discriminate]. apply bind_Ok in V as (jws & _ & V). destruct (r1_verify w jws k); [|discriminate].
      apply Ok_inj in V. now symmetry. }
  cbn [fst snd]. apply (hash_accepted w r2 alg' h). rewrite <- Hh'. apply (hash_of_code w r' r2 alg' code C C2).
  unfold toURLHash in Hh'. rewrite C in Hh'. cbn [bind] in Hh'. now destruct (known_alg alg').
Qed.

(** What is accepted by URL is a receipt with that hash. *)
Theorem url_verified w v fetch url : getAndVerifyReceiptURL w v fetch url = Ok tt ->
  exists code r alg h, fetch url = Ok code /\ verifyBasicCode w v code = Ok (r, alg)
    /\ getURLHashFromURL url = Some h /\ verifyURLHash w r alg h = Ok tt.
Proof.
  unfold getAndVerifyReceiptURL. intros H. apply bind_Ok in H as (code & F & H). cbv zeta in H.
  apply bind_Ok in H as ([r alg] & V & H). cbn [fst snd] in H. exists code, r, alg.
  destruct (getURLHashFromURL url) as [h|]; cbn [verifyURLHashOpt] in H.
  - now exists h.
  - apply bind_Ok in H as (qr & _ & H). apply bind_Ok in H as (hh & _ & H). discriminate.
Qed.
