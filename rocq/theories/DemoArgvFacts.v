(** Facts about demo.py together with key_store.py and verify.py. *)
From Coq Require Import Lia.
From Verif Require Import PyBase ListFacts World Regex RegexFacts Codec CodecFacts CodecFacts2 RoundTrip2 PyFloat PyTime Algo Receipt SpecReceipt ReceiptFacts SpecKeys Json Pem KeyStore VerifyReceipt State DepParser Verify DepExport AcceptFacts
  SpecDep SpecCluster SpecDoc SpecExport ExportFacts CashReg SpecCashReg Demo SpecDemo DemoFacts Cli SpecCli CliFacts Argv SpecArgv ArgvFacts KeyStoreCli SpecKeyStoreCli KeyStoreCliFacts
  StateArgv SpecStateArgv KeyArgv SpecKeyArgv KeyArgvFacts TestVerifyFacts TestFilesFacts Remote SpecRemote RemoteFacts DemoArgv SpecDemoArgv.
Open Scope N_scope.

Theorem demo_usage w net fs draws args : demo_program w net fs draws args = D_usage <-> ~ demo_shaped args.
Proof.
  unfold demo_shaped. assert (forall r : result (option json), match r with Err _ => D_raised | Ok None => D_number | Ok (Some dep) => D_printed dep end <> D_usage) as K by (intros [[|]|]; discriminate).
  destruct args as [|a [|b [|c [|d [|e [|x r]]]]]]; cbn [demo_program List.length In]; split; intros H;
    try (exfalso; exact (K _ H)); try reflexivity; try (intros [Q|[Q|[Q|[]]]]; discriminate Q); exfalso; apply H; auto.
Qed.

(** ** The DEP printed is read as it is. *)
Lemma strings_load l : map load (map JStr l) = map JStr l.
Proof. rewrite map_map. reflexivity. Qed.
Lemma one_group_loads w g dep : export w ([g], None) [] = Ok dep -> load dep = dep.
Proof.
  unfold export. cbn [fst snd mapM]. intros H. apply bind_Ok in H as (js & M & H). apply bind_Ok in M as (j & Ej & M). apply Ok_inj in M. apply Ok_inj in H. subst js dep.
  unfold exportGroup in Ej. apply bind_Ok in Ej as (ts & _ & Ej). apply Ok_inj in Ej. subst j. unfold with_extra. cbn -[k_bg k_cert k_certs k_recs dict_set].
  rewrite !map_map. cbn [load]. reflexivity.
Qed.
Lemma demo_exported w a draws dep : demo w a draws = Ok (Some dep) -> exported w dep /\ load dep = dep.
Proof.
  unfold demo. intros (s & _ & (num & _ & H)%bind_Ok)%bind_Ok. destruct (num <? 1)%Z; [discriminate|].
  apply bind_Ok in H as (kb & _ & (key & _ & (g & _ & (l & _ & (d & E & H)%bind_Ok)%bind_Ok)%bind_Ok)%bind_Ok). apply Ok_inj in H. injection H as ->.
  unfold single_group in E. split; [|exact (one_group_loads w _ dep E)]. exists [RGroup l None []], []. split; [exact E|constructor].
Qed.

(** ** Setting up the key store *)
Lemma session3 w a b c sa sb sc fs fs' : store_session w [(a, sa); (b, sb); (c, sc)] fs fs' ->
  exists fs1 fs2, files_after fs (store_program w fs sa a) fs1 /\ files_after fs1 (store_program w fs1 sb b) fs2 /\ files_after fs2 (store_program w fs2 sc c) fs'.
Proof.
  intros S. inversion S as [|? ? ? ? fs1 ? A1 S1]; subst. inversion S1 as [|? ? ? ? fs2 ? A2 S2]; subst. inversion S2 as [|? ? ? ? fs3 ? A3 S3]; subst.
  inversion S3; subst. exists fs1, fs2. auto.
Qed.
Lemma signless_nil : signless [].
Proof. intros i c H. discriminate H. Qed.

(** A call that changes the key store *)
Lemma change_step w fs fs1 store stdin words cmd j ks key : pem_ok w -> f_json fs store = Ok j -> opens w j ks key -> signless ks -> changing cmd -> valid_command w cmd ->
  store_argv fs stdin words = Some (Ok cmd) -> anew cmd = false -> files_after fs (store_program w fs stdin (store :: words)) fs1 ->
  exists j' ks' key', f_json fs1 store = Ok j' /\ opens w j' ks' key' /\ signless ks' /\ (forall i, found_after w cmd ks i (found_at ks' i)) /\ key_after w cmd key key'
    /\ forall n, n <> store -> f_text fs1 n = f_text fs n.
Proof.
  intros PO J O Sg Ch Va As An A. destruct (store_commands w cmd j ks key PO O Sg Ch) as [C V]. apply V in Va as ([wr out] & R).
  destruct (C _ R) as (_ & ks' & key' & O' & Sg' & Fo & Ka). unfold store_program in A. rewrite As in A. cbn [bind] in A. rewrite An, J in A. cbn [bind] in A. rewrite R in A.
  unfold file_after in O'. cbn [fst] in O'. destruct wr as [j'|]; cbn [option_map files_after] in A.
  - destruct A as [A1 A2]. exists j', ks', key'. split; [exact A1|]. split; [exact O'|]. split; [exact Sg'|]. split; [exact Fo|]. split; [exact Ka|]. intros n N. now apply A2.
  - subst fs1. exists j, ks', key'. split; [exact J|]. split; [exact O'|]. split; [exact Sg'|]. split; [exact Fo|]. split; [exact Ka|]. reflexivity.
Qed.

Lemma add_valid w fs words add fs1 : key_files w fs words add -> (forall n, In n words -> f_text fs1 n = f_text fs n) ->
  exists cmd, store_argv fs1 [] add = Some (Ok cmd) /\ (forall stdin, store_argv fs1 stdin add = Some (Ok cmd)) /\ changing cmd /\ valid_command w cmd /\ anew cmd = false
    /\ (forall key key', key_after w cmd key key' -> key' = key)
    /\ exists m, (forall ks ks', (forall i, found_after w cmd ks i (found_at ks' i)) -> demo_key_stored w ks' m)
      /\ (forall net fs' draws aesf num, (forall n, In n words -> f_text fs' n = f_text fs n) -> forall t, f_text fs' aesf = Ok t ->
          demo_program w net fs' draws (words ++ [aesf; num]) =
          match demo w (DemoArgs m (universal_newlines t) num) draws with Err _ => D_raised | Ok None => D_number | Ok (Some dep) => D_printed dep end).
Proof.
  intros K Sm. destruct K as [privf certf p t c Hp Ht L Kp|privf pubf id p t k Hp Ht L Kp Id Nu En].
  - exists (K_addCert (universal_newlines t)).
    assert (forall stdin, store_argv fs1 stdin [lit "add"; certf] = Some (Ok (K_addCert (universal_newlines t)))) as A.
    { intros stdin. cbn [store_argv]. rewrite (Sm certf), Ht by (cbn [In]; auto). reflexivity. }
    split; [apply A|]. split; [exact A|]. split; [exact I|]. split; [now exists c|]. split; [reflexivity|]. split; [intros key key' H; exact H|].
    exists (DemoOpen (universal_newlines p) (universal_newlines t)). split.
    + intros ks ks' F. exists c, (w_cert_pubkey w c). split; [exact L|]. split; [exact Kp|]. unfold has_key.
      destruct (F (numSerialToKeyId (w_serial w c))) as (c' & L' & [[_ E]|[N _]]); rewrite L in L'; apply Ok_inj in L'; subst c'; [|now destruct N].
      unfold found_at in E. now injection E as E _.
    + intros net fs' draws aesf num Sm' ta Ta. cbn [app demo_program]. rewrite (Sm' privf), (Sm' certf), Hp, Ht, Ta by (cbn [In]; auto). reflexivity.
  - exists (K_addKey (universal_newlines t) id).
    assert (forall stdin, store_argv fs1 stdin [lit "add"; pubf; id] = Some (Ok (K_addKey (universal_newlines t) id))) as A.
    { intros stdin. cbn [store_argv]. rewrite (Sm pubf), Ht by (cbn [In]; auto). reflexivity. }
    split; [apply A|]. split; [exact A|]. split; [exact I|]. split; [now exists k|]. split; [reflexivity|]. split; [intros key key' H; exact H|].
    exists (DemoClosed (universal_newlines p) id). split.
    + intros ks ks' F. split; [exact Id|]. split; [exact Nu|]. split; [exact En|]. exists k. split; [exact Kp|]. unfold has_key.
      destruct (F id) as (k' & L' & [[_ E]|[N _]]); rewrite L in L'; apply Ok_inj in L'; subst k'; [|now destruct N].
      unfold found_at in E. now injection E as E _.
    + intros net fs' draws aesf num Sm' ta Ta. cbn [app demo_program]. rewrite (Sm' privf), Hp, Ta by (cbn [In]; auto). reflexivity.
Qed.

Lemma typed_fun w s t t' : typed w s t -> typed w s t' -> t = t'.
Proof.
  intros (l & r & E & N & Hr & ->) (l' & r' & E' & N' & Hr' & ->). f_equal. rewrite E in E'. clear E. revert l' N' E'.
  induction l as [|x l IH]; intros [|y l'] N' E'; cbn [app] in E'; [reflexivity|..].
  - exfalso. destruct Hr as [->|(q & ->)]; [discriminate E'|]. injection E' as <- _. apply N'. now left.
  - exfalso. destruct Hr' as [->|(q & ->)]; [discriminate E'|]. injection E' as -> _. apply N. now left.
  - injection E' as -> E'. f_equal. apply IH; [intros I; apply N; now right|intros I; apply N'; now right|exact E'].
Qed.

(** The AES key file: one line, which key_store.py reads as demo.py does *)
Lemma a2b_end s : forall qp l p, a2b qp l p (s ++ [c_nl]) = a2b qp l p s.
Proof.
  induction s as [|c s IH]; intros qp l p; [reflexivity|]. cbn [app a2b]. rewrite !IH. destruct (c =? c_eq); [|destruct (b64_val c)]; destruct qp as [|[|[|qp]]]; rewrite ?IH; reflexivity.
Qed.
Lemma aes_typed w text k : demo_aes_key (universal_newlines text) k -> exists t b, typed w text t /\ t <> [] /\ utf8_encode t = Ok b /\ b64decode b = Ok k.
Proof.
  intros (b & E & D & L). assert (b64_text b) as B by (apply b64decode_accepts; eauto). destruct B as (d & m & nl & -> & Hd & Hm & Hn & G).
  pose proof (b64_text_ascii_parts d m nl Hd Hn) as As. pose proof (b64_text_ascii_parts d m [] Hd (or_introl eq_refl)) as As'. rewrite app_nil_r in As'.
  apply utf8_decode_encode in E. rewrite utf8_decode_ascii in E by exact As. apply Ok_inj in E.
  assert (forall c, In c (d ++ repeat c_eq m) -> char_isspace w c = false /\ c <> c_nl) as Sp.
  { intros c I. assert (is_b64_char c = true \/ c = c_eq) as K.
    { apply in_app_or in I as [I|I]; [left; rewrite forallb_forall in Hd; now apply Hd|right; now apply repeat_spec in I]. }
    unfold char_isspace. destruct K as [K| ->]; [|split; [reflexivity|discriminate]]. unfold is_b64_char, is_az, is_AZ, is_09, c_slash, c_plus in K. unfold c_nl.
    destruct (N.ltb_spec c 128); lia. }
  assert (b64decode (d ++ repeat c_eq m) = Ok k) as D'.
  { destruct Hn as [->| ->]; [now rewrite app_nil_r in D|]. unfold b64decode in *. rewrite utf8_decode_ascii in * by assumption. cbn [bind] in *.
    replace (re_match b64Regex (d ++ repeat c_eq m)) with true; [|symmetry; apply b64Regex_spec; exists d, m, []; rewrite app_nil_r; repeat split; try assumption; now left].
    destruct (re_match b64Regex _) in D; [|discriminate D]. unfold a2b_base64 in *. rewrite app_assoc, a2b_end in D. exact D. }
  exists (d ++ repeat c_eq m), (d ++ repeat c_eq m). split; [|split; [|split; [now apply utf8_encode_ascii|exact D']]].
  - exists (d ++ repeat c_eq m), nl. rewrite <- E, <- app_assoc. split; [reflexivity|]. split; [intros I; now apply Sp in I|].
    split; [destruct Hn as [->| ->]; [now left|right; now exists []]|]. symmetry. apply strip_id. split; intros c r Ec; apply (Sp c); rewrite Ec; [now left|apply in_or_app; right; now left].
  - intros N. rewrite N in D'. vm_compute in D'. apply Ok_inj in D'. subst k. discriminate L.
Qed.

Theorem demo_verified w net fs fs' draws words add store aesf num at_ k n x y : hash_ok w -> aes_ok w -> pem_ok w ->
  key_files w fs words add -> f_text fs aesf = Ok at_ -> demo_aes_key (universal_newlines at_) k -> ~ In store (aesf :: words) ->
  py_int w 10 num = Some n -> (1 <= n <= 10 ^ 13)%Z -> (forall i, draw_ok (draws i)) -> steady draws ->
  store_session w [([store; lit "create"], x); (store :: add, y); ([store; lit "setSymmetricKey"], at_)] fs fs' ->
  exists dep, demo_program w net fs' draws (words ++ [aesf; num]) = D_printed dep
    /\ forall b pick env read stdin args a depf, understood w env args a store depf -> va_state a = false -> va_register a = A_none ->
        read store = f_json fs' store -> read depf = Ok dep -> verify_program w b pick env read stdin args = VEnd None true 0.
Proof.
  intros HO AO PO Kf Ta Da Nin Pn Bn Dr St S. destruct (aes_typed w at_ k Da) as (t & tb & Ty & Tn & Te & Tk). apply session3 in S as (fs1 & fs2 & A1 & A2 & A3).
  assert (exists j, f_json fs1 store = Ok j /\ opens w j [] None /\ forall m, m <> store -> f_text fs1 m = f_text fs m) as (j & J1 & O1 & T1).
  { destruct (store_create w JNull PO) as (j & C & O). unfold store_program in A1. change (store_argv fs x [lit "create"]) with (Some (Ok K_create)) in A1. cbn [bind anew] in A1.
    rewrite C in A1. cbn [option_map files_after] in A1. exists j. split; [apply A1|]. split; [exact O|]. intros m M. now apply A1. }
  assert (forall m, In m words -> m <> store) as W1 by (intros m M ->; apply Nin; now right).
  assert (aesf <> store) as W2 by (intros E; apply Nin; now left).
  destruct (add_valid w fs words add fs1 Kf) as (cmd & _ & As & Ch & Va & An & Ka & m & Ks & Dp); [intros q Q; now apply T1, W1|].
  destruct (change_step w fs1 fs2 store y add cmd j [] None PO J1 O1 signless_nil Ch Va (As y) An A2) as (j2 & ks2 & key2 & J2 & O2 & Sg2 & F2 & K2 & T2).
  apply Ka in K2. subst key2.
  destruct (change_step w fs2 fs' store at_ [lit "setSymmetricKey"] (K_setKey at_) j2 ks2 None PO J2 O2 Sg2 Logic.I) as (j3 & ks3 & key3 & J3 & O3 & Sg3 & F3 & K3 & T3);
    [exists t, tb; split; [exact Ty|split; [exact Te|now exists k]]|reflexivity|reflexivity|exact A3|].
  assert (key3 = Some k) as ->.
  { destruct K3 as (t' & b' & Ty' & Te' & Q). rewrite <- (typed_fun w at_ t t' Ty Ty') in *. rewrite Te in Te'. apply Ok_inj in Te'. subst b'.
    destruct Q as [[Q _]|(_ & k' & Q & ->)]; [contradiction|]. rewrite Tk in Q. apply Ok_inj in Q. now subst k'. }
  assert (forall q, q <> store -> f_text fs' q = f_text fs q) as T by (intros q Q; rewrite T3, T2, T1 by exact Q; reflexivity).
  assert (demo_key_stored w ks3 m) as Dk.
  { specialize (Ks [] ks2 F2). clear -Ks F3. cbn [found_after] in F3. unfold demo_key_stored in *. assert (forall i p, has_key ks2 i p -> has_key ks3 i p) as H.
    { intros i p P. unfold has_key in *. specialize (F3 i). unfold found_at in F3. injection F3 as F3 _. now rewrite F3. }
    destruct m as [priv ct|priv id].
    - destruct Ks as (c & pub & L & P & G). exists c, pub. auto.
    - destruct Ks as (I1 & I2 & I3 & pub & P & G). split; [exact I1|]. split; [exact I2|]. split; [exact I3|]. exists pub. auto. }
  rewrite (Dp net fs' draws aesf num) with (t := at_); [|intros q Q; now apply T, W1|now rewrite T].
  assert (forall b, exists dep reg ids, demo w (DemoArgs m (universal_newlines at_) num) draws = Ok (Some dep)
    /\ verifyDEP w (load dep) ks3 (Some k) (new_cluster b) None = (Cluster [reg] (fold_left used_add ids (used_new b)), None)) as D.
  { intros b. destruct (demo_accepted w ks3 b (Some k) (DemoArgs m (universal_newlines at_) num) draws n k HO AO PO Dk Da Pn Bn Dr St (or_intror eq_refl)) as (dep & reg & ids & D1 & D2 & _).
    exists dep, reg, ids. auto. }
  destruct (D B_unique) as (dep & _ & _ & D1 & _). rewrite D1. exists dep. split; [reflexivity|].
  intros b pick env read stdin args a depf U Vs Vr Rs Rd. destruct (D b) as (dep' & reg & ids & D1' & V). rewrite D1 in D1'. apply Ok_inj in D1'. injection D1' as <-.
  destruct (demo_exported w _ draws dep D1) as [X Ld].
  assert (regular_file w dep) as Rg. { rewrite Ld in V. exact (proj2 (load_verify w dep ks3 (Some k) _ _ _ HO X V)). }
  unfold verify_program. pose proof U as U'. apply command_iff in U'. rewrite U', Rs, J3. cbn [bind]. rewrite Vs. cbn [bind]. rewrite Rd. cbn [bind].
  assert (verify_py w b pick a j3 JNull dep = Ok None) as ->; [|reflexivity].
  apply verify_py_spec; [exact HO|exact (understood_legal _ _ _ _ _ _ U)|intros c Hc; discriminate Hc|exact Rg|].
  exists (Some k), ks3, (new_cluster b), (Cluster [reg] (fold_left used_add ids (used_new b))). destruct O3 as [O3 O4]. split; [exact O4|]. split; [exact O3|].
  split; [unfold read_state; now rewrite Vs|]. split; [|now rewrite Vs]. unfold register_index. rewrite Vr. exact V.
Qed.

(** ** What is printed *)
Lemma mapM_count {A B} (f : A -> result B) l : forall l', mapM f l = Ok l' -> List.length l' = List.length l.
Proof. induction l as [|x l IH]; intros l' H; cbn [mapM] in H; [apply Ok_inj in H; now subst|]. apply bind_Ok in H as (y & _ & (r & R & H)%bind_Ok). apply Ok_inj in H. subst l'. cbn [List.length]. f_equal. now apply IH. Qed.
Lemma issued_count w qs : forall g l, snd (issue_all w g qs) = Ok l -> List.length l = List.length qs.
Proof.
  induction qs as [|q qs IH]; intros g l H; cbn [issue_all] in H; [apply Ok_inj in H; now subst|]. destruct (issue w g (lit "R1") q) as [g' [rec|e]]; [|discriminate H].
  specialize (IH g'). destruct (issue_all w g' qs) as [g'' r]. cbn [snd] in *. apply bind_Ok in H as (l' & -> & H). apply Ok_inj in H. subst l. cbn [List.length]. f_equal. now apply IH.
Qed.
Lemma remote_count w d qs : forall g l, snd (remote_all w g d qs) = Ok l -> List.length l = List.length qs.
Proof.
  induction qs as [|[q post] qs IH]; intros g l H; cbn [remote_all] in H; [apply Ok_inj in H; now subst|]. destruct (remote_issue w g d post q) as [g' [rec|e]]; [|discriminate H].
  specialize (IH g'). destruct (remote_all w g' d qs) as [g'' r]. cbn [snd] in *. apply bind_Ok in H as (l' & -> & H). apply Ok_inj in H. subst l. cbn [List.length]. f_equal. now apply IH.
Qed.
Lemma requests_count s n draws : (1 <= n)%nat -> List.length (demo_requests s n draws) = n.
Proof. intros L. unfold demo_requests. cbn [List.length]. rewrite map_length, seq_length. lia. Qed.
Lemma single_plain w l dep : export w (single_group l) [] = Ok dep -> exists rs, dep = plain_dep rs /\ List.length rs = List.length l.
Proof.
  unfold export, single_group. cbn [fst snd mapM]. intros H. apply bind_Ok in H as (js & M & H). apply bind_Ok in M as (j & Ej & M). apply Ok_inj in M. apply Ok_inj in H. subst js dep.
  unfold exportGroup in Ej. apply bind_Ok in Ej as (ts & T & Ej). apply Ok_inj in Ej. subst j. exists ts. split; [reflexivity|]. now apply mapM_count in T.
Qed.

(** Both ways to make receipts, by the number *)
Definition made (w : world) (num text : str) (ready : Prop) (r : result (option json)) : Prop :=
  (r = Ok None <-> ready /\ exists n, py_int w 10 num = Some n /\ (n < 1)%Z)
  /\ (forall dep, r = Ok (Some dep) -> ready /\ exists n rs b k, py_int w 10 num = Some n /\ (1 <= n)%Z /\ utf8_encode text = Ok b /\ b64decode b = Ok k /\ dep = plain_dep rs /\ Z.of_nat (List.length rs) = n).
Lemma demo_made w m num text draws : made w num text (exists s, demo_device w m = Ok s) (demo w (DemoArgs m text num) draws).
Proof.
  unfold demo. cbn [da_mode da_num da_key]. destruct (demo_device w m) as [s|e]; cbn [bind]; [|split; [split; [discriminate|intros [[s Q] _]; discriminate Q]|discriminate]].
  destruct (py_int w 10 num) as [n|] eqn:Pn; cbn [bind]; [|split; [split; [discriminate|intros (_ & n & Q & _); congruence]|discriminate]].
  split; [split|].
  - destruct (Z.ltb_spec n 1) as [L|L]; [intros _; split; [now exists s|exists n; auto]|]. intros (kb & _ & (k & _ & (g & _ & (l & _ & (d & _ & H)%bind_Ok)%bind_Ok)%bind_Ok)%bind_Ok)%bind_Ok. discriminate H.
  - intros (_ & n' & Q & L). assert (n' = n) as -> by congruence. destruct (Z.ltb_spec n 1); [reflexivity|lia].
  - intros dep. destruct (Z.ltb_spec n 1) as [L|L]; [discriminate|]. intros (kb & E & (k & D & (g & _ & (l & I & (d & X & H)%bind_Ok)%bind_Ok)%bind_Ok)%bind_Ok)%bind_Ok.
    apply Ok_inj in H. injection H as ->. split; [now exists s|]. apply single_plain in X as (rs & -> & C). apply issued_count in I. rewrite requests_count in I by lia.
    exists n, rs, kb, k. repeat split; try assumption. lia.
Qed.
Lemma remote_made w ce zd post num text draws : made w num text (exists d, open_remote ce zd = Ok d) (demo_remote w ce zd post text num draws).
Proof.
  unfold demo_remote. destruct (open_remote ce zd) as [s|e]; cbn [bind]; [|split; [split; [discriminate|intros [[s Q] _]; discriminate Q]|discriminate]].
  destruct (py_int w 10 num) as [n|] eqn:Pn; cbn [bind]; [|split; [split; [discriminate|intros (_ & n & Q & _); congruence]|discriminate]].
  split; [split|].
  - destruct (Z.ltb_spec n 1) as [L|L]; [intros _; split; [now exists s|exists n; auto]|]. intros (kb & _ & (k & _ & (g & _ & (l & _ & (d & _ & H)%bind_Ok)%bind_Ok)%bind_Ok)%bind_Ok)%bind_Ok. discriminate H.
  - intros (_ & n' & Q & L). assert (n' = n) as -> by congruence. destruct (Z.ltb_spec n 1); [reflexivity|lia].
  - intros dep. destruct (Z.ltb_spec n 1) as [L|L]; [discriminate|]. intros (kb & E & (k & D & (g & _ & (l & I & (d & X & H)%bind_Ok)%bind_Ok)%bind_Ok)%bind_Ok)%bind_Ok.
    apply Ok_inj in H. injection H as ->. split; [now exists s|]. apply single_plain in X as (rs & -> & C). apply remote_count in I.
    rewrite combine_length, map_length, seq_length, requests_count, Nat.min_id in I by lia. exists n, rs, kb, k. repeat split; try assumption. lia.
Qed.
Lemma with_made w num t ready run : (forall text, made w num text ready (run text)) ->
  (with_key_file t run = Ok None <-> ready /\ exists n, py_int w 10 num = Some n /\ (n < 1)%Z)
  /\ (forall dep, with_key_file t run = Ok (Some dep) -> exists text, t = Ok text /\ run (universal_newlines text) = Ok (Some dep)).
Proof.
  intros M. destruct t as [s|e]; cbn [with_key_file].
  - split; [apply M|]. intros dep H. exists s. auto.
  - destruct (M []) as [M1 M2]. rewrite <- M1. destruct (run []) as [[d|]|e']; cbn [bind]; split; try discriminate; split; try discriminate; auto.
Qed.

Theorem demo_number w net fs draws args : demo_program w net fs draws args = D_number <->
  exists words keyf num n, args = words ++ [keyf; num] /\ device_words w net fs words /\ py_int w 10 num = Some n /\ (n < 1)%Z.
Proof.
  assert (forall r : result (option json), match r with Err _ => D_raised | Ok None => D_number | Ok (Some dep) => D_printed dep end = D_number <-> r = Ok None) as K
    by (intros [[d|]|e]; split; intros; try discriminate; reflexivity).
  split.
  - destruct args as [|a [|b [|c [|d [|e [|x r]]]]]]; cbn [demo_program]; try discriminate; rewrite K; intros H.
    + apply (with_made w b _ _ _ (fun t => remote_made w _ _ (n_post net) b t draws)) in H as ([s S] & n & P & L). exists [], a, b, n. split; [reflexivity|]. split; [now apply dw_service with s|auto].
    + apply bind_Ok in H as (p & Hp & (q & Hq & H)%bind_Ok). apply (with_made w d _ _ _ (fun t => demo_made w _ d t draws)) in H as ([s S] & n & P & L).
      cbn [demo_device] in S. apply bind_Ok in S as (ce & C & _). exists [a; b], c, d, n. split; [reflexivity|]. split; [now apply dw_open with p q ce|auto].
    + apply bind_Ok in H as (p & Hp & H). apply (with_made w e _ _ _ (fun t => demo_made w _ e t draws)) in H as ([s S] & n & P & L).
      exists [a; b; c], d, e, n. split; [reflexivity|]. split; [now apply dw_closed with p|auto].
  - intros (words & keyf & num & n & -> & [d O|privf certf p t c Hp Ht C|privf pubf id p Hp] & P & L); cbn [app demo_program]; apply K.
    + apply (with_made w num _ _ _ (fun t => remote_made w _ _ (n_post net) num t draws)). split; [now exists d|exists n; auto].
    + rewrite Hp, Ht. cbn [bind]. apply (with_made w num _ _ _ (fun t => demo_made w _ num t draws)). split; [cbn [demo_device]; rewrite C; cbn [bind]; eauto|exists n; auto].
    + rewrite Hp. cbn [bind]. apply (with_made w num _ _ _ (fun t => demo_made w _ num t draws)). split; [cbn [demo_device]; eauto|exists n; auto].
Qed.

Theorem demo_printed w net fs draws args dep : demo_program w net fs draws args = D_printed dep ->
  exists words keyf num text b k rs, args = words ++ [keyf; num] /\ device_words w net fs words /\ f_text fs keyf = Ok text
    /\ utf8_encode (universal_newlines text) = Ok b /\ b64decode b = Ok k
    /\ dep = plain_dep rs /\ py_int w 10 num = Some (Z.of_nat (List.length rs)) /\ rs <> [].
Proof.
  assert (forall r : result (option json), match r with Err _ => D_raised | Ok None => D_number | Ok (Some dep) => D_printed dep end = D_printed dep <-> r = Ok (Some dep)) as K
    by (intros [[d|]|e]; split; intros Q; try discriminate; [injection Q as ->; reflexivity|apply Ok_inj in Q; injection Q as ->; reflexivity]).
  destruct args as [|a [|b [|c [|d [|e [|x r]]]]]]; cbn [demo_program]; try discriminate; rewrite K; intros H.
  - apply (with_made w b _ _ _ (fun t => remote_made w _ _ (n_post net) b t draws)) in H as (t & T & H). apply remote_made in H as ([s S] & n & rs & kb & k & P & L & E & D & -> & C).
    exists [], a, b, t, kb, k, rs. split; [reflexivity|]. split; [now apply dw_service with s|]. rewrite C. repeat split; try assumption. intros ->. cbn in C. lia.
  - apply bind_Ok in H as (p & Hp & (q & Hq & H)%bind_Ok). apply (with_made w d _ _ _ (fun t => demo_made w _ d t draws)) in H as (t & T & H). apply demo_made in H as ([s S] & n & rs & kb & k & P & L & E & D & -> & C).
    cbn [demo_device] in S. apply bind_Ok in S as (ce & Ce & _). exists [a; b], c, d, t, kb, k, rs. split; [reflexivity|]. split; [now apply dw_open with p q ce|]. rewrite C. repeat split; try assumption. intros ->. cbn in C. lia.
  - apply bind_Ok in H as (p & Hp & H). apply (with_made w e _ _ _ (fun t => demo_made w _ e t draws)) in H as (t & T & H). apply demo_made in H as ([s S] & n & rs & kb & k & P & L & E & D & -> & C).
    exists [a; b; c], d, e, t, kb, k, rs. split; [reflexivity|]. split; [now apply dw_closed with p|]. rewrite C. repeat split; try assumption. intros ->. cbn in C. lia.
Qed.

(** ** With the service *)
Lemma remote_exported w ce zd post text num draws dep : demo_remote w ce zd post text num draws = Ok (Some dep) -> exported w dep /\ load dep = dep.
Proof.
  unfold demo_remote. intros (s & _ & (num' & _ & H)%bind_Ok)%bind_Ok. destruct (num' <? 1)%Z; [discriminate|].
  apply bind_Ok in H as (kb & _ & (key & _ & (g & _ & (l & _ & (d & E & H)%bind_Ok)%bind_Ok)%bind_Ok)%bind_Ok). apply Ok_inj in H. injection H as ->.
  unfold single_group in E. split; [|exact (one_group_loads w _ dep E)]. exists [RGroup l None []], []. split; [exact E|constructor].
Qed.
Theorem service_verified w net fs fs' draws certf t c store aesf num at_ k n x y : hash_ok w -> aes_ok w -> pem_ok w ->
  f_text fs certf = Ok t -> loadCert w (universal_newlines t) = Ok c -> service_for w net c ->
  f_text fs aesf = Ok at_ -> demo_aes_key (universal_newlines at_) k -> store <> aesf -> store <> certf ->
  py_int w 10 num = Some n -> (1 <= n <= 10 ^ 13)%Z -> (forall i, draw_ok (draws i)) -> steady draws ->
  store_session w [([store; lit "create"], x); ([store; lit "add"; certf], y); ([store; lit "setSymmetricKey"], at_)] fs fs' ->
  exists dep, demo_program w net fs' draws [aesf; num] = D_printed dep
    /\ forall b pick env read stdin args a depf, understood w env args a store depf -> va_state a = false -> va_register a = A_none ->
        read store = f_json fs' store -> read depf = Ok dep -> verify_program w b pick env read stdin args = VEnd None true 0.
Proof.
  intros HO AO PO Tc Lc (cd & zd & d & priv & m & Nc & Nz & Cs & Ca & Cz & Dv & Nat0 & Si & Kp & Lm & Se) Ta Da Na Nce Pn Bn Dr St S.
  destruct (aes_typed w at_ k Da) as (tt & tb & Ty & Tn & Te & Tk). apply session3 in S as (fs1 & fs2 & A1 & A2 & A3).
  assert (exists j, f_json fs1 store = Ok j /\ opens w j [] None /\ forall m, m <> store -> f_text fs1 m = f_text fs m) as (j & J1 & O1 & T1).
  { destruct (store_create w JNull PO) as (j & C & O). unfold store_program in A1. change (store_argv fs x [lit "create"]) with (Some (Ok K_create)) in A1. cbn [bind anew] in A1.
    rewrite C in A1. cbn [option_map files_after] in A1. exists j. split; [apply A1|]. split; [exact O|]. intros q Q. now apply A1. }
  assert (store_argv fs1 y [lit "add"; certf] = Some (Ok (K_addCert (universal_newlines t)))) as As by (cbn [store_argv]; rewrite T1, Tc by congruence; reflexivity).
  destruct (change_step w fs1 fs2 store y [lit "add"; certf] (K_addCert (universal_newlines t)) j [] None PO J1 O1 signless_nil Logic.I (ex_intro _ c Lc) As eq_refl A2) as (j2 & ks2 & key2 & J2 & O2 & Sg2 & F2 & K2 & T2).
  cbn [key_after] in K2. subst key2.
  destruct (change_step w fs2 fs' store at_ [lit "setSymmetricKey"] (K_setKey at_) j2 ks2 None PO J2 O2 Sg2 Logic.I) as (j3 & ks3 & key3 & J3 & O3 & Sg3 & F3 & K3 & T3);
    [exists tt, tb; split; [exact Ty|split; [exact Te|now exists k]]|reflexivity|reflexivity|exact A3|].
  assert (key3 = Some k) as ->.
  { destruct K3 as (t' & b' & Ty' & Te' & Q). rewrite <- (typed_fun w at_ tt t' Ty Ty') in *. rewrite Te in Te'. apply Ok_inj in Te'. subst b'.
    destruct Q as [[Q _]|(_ & k' & Q & ->)]; [contradiction|]. rewrite Tk in Q. apply Ok_inj in Q. now subst k'. }
  assert (f_text fs' aesf = Ok at_) as Ta' by (rewrite T3, T2, T1 by congruence; exact Ta).
  assert (has_key ks3 (fmt_x (Z.abs (w_serial w c))) (w_cert_pubkey w c)) as Hk.
  { destruct (F2 (numSerialToKeyId (w_serial w c))) as (c' & L' & [[_ E]|[N _]]); rewrite Lc in L'; apply Ok_inj in L'; subst c'; [|now destruct N].
    specialize (F3 (numSerialToKeyId (w_serial w c))). cbn [found_after] in F3. rewrite E in F3. unfold has_key. unfold found_at in F3. now injection F3 as F3 _. }
  assert (device_known w (fromKeyStore ks3) (local_device d priv true)) as Dk.
  { unfold device_known, local_device. cbn [sys_zda sys_serial fromKeyStore v_cert v_store]. split; [discriminate|].
    intros z0 n0 p E. injection E as _ _ <-. exists (w_cert_pubkey w c). split; [exact Kp|]. exists ks3. split; [reflexivity|]. right. split; [exact Nat0|]. left. eauto. }
  cbn [demo_program]. rewrite Ta'. cbn [with_key_file]. rewrite Nc, Nz.
  assert (forall b, exists dep reg ids, demo_remote w (Answer (JDict cd)) (Answer (JDict zd)) (n_post net) (universal_newlines at_) num draws = Ok (Some dep)
    /\ verifyDEP w (load dep) ks3 (Some k) (new_cluster b) None = (Cluster [reg] (fold_left used_add ids (used_new b)), None)) as D.
  { intros b. destruct (demo_remote_accepted w ks3 b (Some k) cd zd d (n_post net) (universal_newlines at_) num draws n k priv m HO AO PO Cs Ca Cz Dv Dk Lm Se Da Pn Bn Dr St (or_intror eq_refl)) as (dep & reg & ids & D1 & D2 & _).
    exists dep, reg, ids. auto. }
  destruct (D B_unique) as (dep & _ & _ & D1 & _). rewrite D1. exists dep. split; [reflexivity|].
  intros b pick env read stdin args a depf U Vs Vr Rs Rd. destruct (D b) as (dep' & reg & ids & D1' & V). rewrite D1 in D1'. apply Ok_inj in D1'. injection D1' as <-.
  destruct (remote_exported w _ _ _ _ _ _ dep D1) as [X Ld].
  assert (regular_file w dep) as Rg. { rewrite Ld in V. exact (proj2 (load_verify w dep ks3 (Some k) _ _ _ HO X V)). }
  unfold verify_program. pose proof U as U'. apply command_iff in U'. rewrite U', Rs, J3. cbn [bind]. rewrite Vs. cbn [bind]. rewrite Rd. cbn [bind].
  assert (verify_py w b pick a j3 JNull dep = Ok None) as ->; [|reflexivity].
  apply verify_py_spec; [exact HO|exact (understood_legal _ _ _ _ _ _ U)|intros q Q; discriminate Q|exact Rg|].
  exists (Some k), ks3, (new_cluster b), (Cluster [reg] (fold_left used_add ids (used_new b))). destruct O3 as [O3 O4]. split; [exact O4|]. split; [exact O3|].
  split; [unfold read_state; now rewrite Vs|]. split; [|now rewrite Vs]. unfold register_index. rewrite Vr. exact V.
Qed.
