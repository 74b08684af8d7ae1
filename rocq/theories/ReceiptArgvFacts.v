(** Facts about the command lines of receipt.py and verify_receipt.py. *)
From Coq Require Import Lia Sorted.
From Verif Require Import PyBase ListFacts World Codec CodecFacts2 Receipt Json KeyStore VerifyReceipt DepExport Url StateCli ReceiptCli SpecReceipt ReceiptFacts SpecDep SpecReceiptCli ReceiptCliFacts
  SpecReading ReadingFacts SpecOcr OcrFacts VerifyFacts RoundTrip2
  ConvertFacts StateArgv SpecStateArgv StateArgvFacts SetupFacts ReceiptArgv SpecReceiptArgv.
Open Scope N_scope.

Lemma format_none s : format_arg s = None <-> ~ exists f, format_word s f.
Proof. rewrite <- format_shape. destruct (format_arg s); split; try congruence. intros H. exfalso. apply H. discriminate. Qed.

Theorem receipt_done w py fetch stdin args raised out : receipt_program w py fetch stdin args = R_end raised out <->
  exists a b f g e, args = [a; b] /\ format_word a f /\ format_word b g /\ receipt_py w py fetch f g stdin = (out, e) /\ (raised = true <-> e <> None).
Proof.
  split.
  - intros H. destruct args as [|a [|b [|]]]; try discriminate. cbn [receipt_program] in H. destruct (format_arg a) as [f|] eqn:A; [|discriminate].
    destruct (format_arg b) as [g|] eqn:B; [|discriminate]. destruct (receipt_py w py fetch f g stdin) as [o e] eqn:P. injection H as <- <-.
    exists a, b, f, g, e. split; [reflexivity|]. split; [now apply format_spec|]. split; [now apply format_spec|]. split; [exact P|].
    destruct e; split; congruence.
  - intros (a & b & f & g & e & -> & A & B & P & R). cbn [receipt_program]. apply format_spec in A. apply format_spec in B. rewrite A, B, P.
    f_equal. destruct e, raised; try reflexivity; [now destruct (proj2 R)|now destruct (proj1 R)].
Qed.
Theorem receipt_usage w py fetch stdin args : receipt_program w py fetch stdin args = R_usage <-> ~ exists a b f g, args = [a; b] /\ format_word a f /\ format_word b g.
Proof.
  split.
  - intros H (a & b & f & g & -> & A & B). cbn [receipt_program] in H. apply format_spec in A. apply format_spec in B. rewrite A, B in H.
    destruct (receipt_py w py fetch f g stdin). discriminate.
  - intros H. destruct args as [|a [|b [|]]]; try reflexivity. cbn [receipt_program]. destruct (format_arg a) as [f|] eqn:A; [|reflexivity].
    destruct (format_arg b) as [g|] eqn:B; [|reflexivity]. exfalso. apply H. exists a, b, f, g. apply format_spec in A. apply format_spec in B. auto.
Qed.

Lemma source_of stdin rest : (exists i, source stdin rest i) <-> (List.length rest <= 1)%nat.
Proof.
  split; [intros (i & S); destruct S; cbn; lia|]. destruct rest as [|s [|]]; cbn; intros L; [|eexists; constructor|lia]. eexists. constructor.
Qed.
Theorem verify_receipt_usage w py fetch reason fs stdin args : verify_receipt_program w py fetch reason fs stdin args = R_usage <->
  ~ exists a f store rest i, args = a :: store :: rest /\ format_word a f /\ source stdin rest i.
Proof.
  split.
  - intros H (a & f & store & rest & i & -> & A & S). apply format_spec in A. cbn [verify_receipt_program] in H.
    destruct S; rewrite A in H; (destruct (f_json fs store) as [j|]; [|discriminate]); (destruct (verify_receipt_py _ _ _ _ _ _) as [failed [[good total]|]]; discriminate).
  - intros H. destruct args as [|a [|store rest]]; try reflexivity. cbn [verify_receipt_program]. destruct (format_arg a) as [f|] eqn:A.
    + destruct rest as [|s [|x r]]; [| |reflexivity]; exfalso; apply H; apply format_spec in A; [exists a, f, store, [], (V_stdin stdin)|exists a, f, store, [s], (V_argument s)]; (split; [reflexivity|split; [exact A|constructor]]).
    + destruct rest as [|s [|x r]]; reflexivity.
Qed.

(** What is printed *)
Lemma program_prints w py fetch reason fs stdin a f store rest i j : format_word a f -> source stdin rest i -> f_json fs store = Ok j ->
  verify_receipt_program w py fetch reason fs stdin (a :: store :: rest) =
  let (failed, e) := verify_receipt_py w py fetch f j i in
  match e with
  | Ok (good, total) => R_end false (lines_text (map (failure_line reason) failed ++ [summary_line good total]))
  | Err _ => R_end true (lines_text (map (failure_line reason) failed))
  end.
Proof.
  intros A S J. apply format_spec in A. cbn [verify_receipt_program]. unfold lines_text.
  destruct S; rewrite A, J; (destruct (verify_receipt_py _ _ _ _ _ _) as [failed [[good total]|]]; [rewrite map_app, concat_app, map_map; cbn [map List.concat]; now rewrite app_nil_r|now rewrite map_map]).
Qed.
Lemma pad3_spec k text : reports k text (lit "Line " ++ pad3 (fmt_d (Z.of_nat k)) ++ lit ": " ++ text).
Proof.
  unfold pad3. exists (repeat 32 (3 - List.length (fmt_d (Z.of_nat k)))). split; [now rewrite <- app_assoc|]. split.
  - apply Forall_forall. intros x X. apply repeat_spec in X. now symmetry.
  - rewrite app_length, repeat_length. lia.
Qed.

Lemma failures_kind w ver : forall l idx fl failed x, verify_lines w ver idx fl l = (failed, x) -> forall k e, In (k, e) failed -> receipt_exception e = true.
Proof.
  induction l as [|t l IH]; intros idx fl failed x V k e I; cbn [verify_lines] in V.
  - injection V as <- _. destruct I.
  - destruct (ver (strip (char_isspace w) t)) as [u|e'].
    + exact (IH _ _ _ _ V _ _ I).
    + destruct (receipt_exception e') eqn:Re; [|injection V as <- _; destruct I].
      destruct (verify_lines w ver (Datatypes.S idx) (Datatypes.S fl) l) as [o y] eqn:Y. injection V as <- ->.
      destruct I as [I|I]; [now injection I as _ <-|]. exact (IH _ _ _ _ Y _ _ I).
Qed.

Theorem report_printed w py fetch reason fs stdin a f store rest i j ks ls : plain_format f -> format_word a f -> source stdin rest i ->
  f_json fs store = Ok j -> readStoreFromJson w (load j) = Ok ks -> given_lines i ls -> Forall encodable ls ->
  let lines := map (strip (char_isspace w)) ls in
  exists failed good out last, verify_receipt_program w py fetch reason fs stdin (a :: store :: rest) = R_end false (lines_text (out ++ [last]))
    /\ Forall2 (fun x line => reports (fst x) (exn_text reason (snd x)) line) failed out /\ summarises good (List.length lines) last
    /\ (good + List.length failed = List.length lines)%nat /\ StronglySorted lt (map fst failed)
    /\ (forall k, In k (map fst failed) <-> exists l, nth_error lines k = Some l /\ ~ genuine w ks f l)
    /\ (forall k e, In (k, e) failed -> exists l rec, nth_error lines k = Some l /\ verify_text w py fetch (fromKeyStore ks) f l = Err e /\ about e rec).
Proof.
  intros Pf A S J R G En lines. destruct (report_spec w py fetch f j ks i ls Pf R G En) as (failed & good & V & Su & So & F1 & F2). fold lines in V, Su, F1, F2.
  exists failed, good, (map (failure_line reason) failed), (summary_line good (List.length lines)).
  split; [now rewrite (program_prints w py fetch reason fs stdin a f store rest i j A S J), V|]. split.
  { clear. induction failed as [|[k e] l IH]; [constructor|]. cbn [map]. constructor; [apply pad3_spec|exact IH]. }
  split; [reflexivity|]. split; [exact Su|]. split; [exact So|]. split.
  - intros k. split.
    + intros I. apply in_map_iff in I as ([k' e] & <- & I). destruct (F1 k' e I) as (l & N & _ & Ge). eauto.
    + intros (l & N & Ge). destruct (F2 k l N Ge) as (e & I). apply in_map_iff. now exists (k, e).
  - intros k e I. destruct (F1 k e I) as (l & N & Ve & _).
    assert (receipt_exception e = true) as X.
    { unfold verify_receipt_py in V. rewrite R in V. exact (failures_kind _ _ _ _ _ _ _ V k e I). }
    exists l. unfold about. destruct e; try discriminate X; eexists; (split; [exact N|]); (split; [exact Ve|]); eauto 20.
Qed.

(** ** Reading the report *)
Lemma split_first (c : N) a : forall a' b b', ~ In c a -> ~ In c a' -> a ++ c :: b = a' ++ c :: b' -> a = a' /\ b = b'.
Proof.
  induction a as [|x a IH]; intros [|y a'] b b' N N' E; cbn [app] in E.
  - injection E as ->. auto.
  - injection E as <- _. exfalso. apply N'. now left.
  - injection E as -> _. exfalso. apply N. now left.
  - injection E as -> E. destruct (IH a' b b') as [-> ->]; [intros I; apply N; now right|intros I; apply N'; now right|exact E|auto].
Qed.
Lemma digits_not k c : ~ (48 <= c <= 57) -> ~ In c (fmt_d (Z.of_nat k)).
Proof. intros H I. destruct (fmt_d_digits (Z.of_nat k) ltac:(lia)) as [D _]. rewrite Forall_forall in D. now apply H, D. Qed.
Lemma pad3_not k c : ~ (48 <= c <= 57) -> c <> 32 -> ~ In c (pad3 (fmt_d (Z.of_nat k))).
Proof. intros H N I. unfold pad3 in I. apply in_app_or in I as [I|I]; [apply repeat_spec in I; congruence|]. now apply (digits_not k c). Qed.
Lemma pad3_inj k k' : pad3 (fmt_d (Z.of_nat k)) = pad3 (fmt_d (Z.of_nat k')) -> k = k'.
Proof.
  intros E. apply (f_equal (filter (fun c => negb (c =? 32)))) in E. unfold pad3 in E. rewrite !filter_app in E.
  assert (forall n, filter (fun c => negb (c =? 32)) (repeat 32 n) = []) as R by (induction n; [reflexivity|assumption]). rewrite !R in E. cbn [app] in E.
  assert (forall n, filter (fun c => negb (c =? 32)) (fmt_d (Z.of_nat n)) = fmt_d (Z.of_nat n)) as F.
  { intros n. destruct (fmt_d_digits (Z.of_nat n) ltac:(lia)) as [D _]. induction D as [|c l Hc D IH]; [reflexivity|]. cbn [filter]. destruct (N.eqb_spec c 32); [lia|]. cbn [negb]. now rewrite IH. }
  rewrite !F in E. apply fmt_d_inj in E. lia.
Qed.
Lemma failure_inj reason reason' x y : failure_line reason x = failure_line reason' y -> fst x = fst y /\ exn_text reason (snd x) = exn_text reason' (snd y).
Proof.
  unfold failure_line. intros E. apply app_inv_head in E. change (lit ": ") with [58; 32] in E. cbn [app] in E.
  apply split_first in E as [E1 E2]; [|apply pad3_not; lia|apply pad3_not; lia]. apply pad3_inj in E1. injection E2 as E2. auto.
Qed.
Lemma summary_inj g t g' t' : summary_line g t = summary_line g' t' -> g = g' /\ t = t'.
Proof.
  unfold summary_line. change (lit " of ") with [32; 111; 102; 32]. cbn [app]. intros E.
  apply split_first in E as [E1 E2]; [|apply digits_not; lia|apply digits_not; lia]. apply fmt_d_inj in E1. injection E2 as E2.
  change (lit " receipts verified successfully.") with (32 :: lit "receipts verified successfully.") in E2.
  apply split_first in E2 as [E2 _]; [|apply digits_not; lia|apply digits_not; lia]. apply fmt_d_inj in E2. lia.
Qed.
Lemma in_at c rec msg : In c (at_receipt rec msg) -> In c (lit "At receipt "": ") \/ In c rec \/ In c msg.
Proof. unfold at_receipt. intros I. apply in_app_or in I as [I|I]; [left; cbn in *; tauto|]. apply in_app_or in I as [I|I]; [auto|]. apply in_app_or in I as [I|I]; [left; cbn in *; tauto|auto]. Qed.
Lemma text_tidy reason e : (forall rec, about e rec -> ~ In c_nl rec) -> (forall rec x, e = MalformedReceipt rec -> reason rec = Some x -> ~ In c_nl x) -> ~ In c_nl (exn_text reason e).
Proof.
  intros A R I. unfold about in A.
  destruct e; cbn [exn_text] in I; try (now destruct I); apply in_at in I as [I|[I|I]]; try (cbn in I; intuition discriminate); try (now apply (A rec); [eauto 20|]).
  destruct (reason rec) as [[|x r]|] eqn:E; try (cbn in I; intuition discriminate).
  apply in_app_or in I as [I|I]; [cbn in I; intuition discriminate|]. apply in_app_or in I as [I|I]; [cbn in I; intuition discriminate|]. now apply (R rec (x :: r)).
Qed.
Lemma failure_tidy reason failed : tidy reason failed -> Forall (fun l => ~ In c_nl l) (map (failure_line reason) failed).
Proof.
  intros T. apply Forall_map, Forall_forall. intros [k e] I X. unfold failure_line in X. cbn [fst snd] in X. destruct (T k e I) as [A B].
  apply in_app_or in X as [X|X]; [cbn in X; intuition discriminate|]. apply in_app_or in X as [X|X]; [revert X; apply pad3_not; [unfold c_nl; lia|discriminate]|].
  apply in_app_or in X as [X|X]; [cbn in X; intuition discriminate|]. revert X. now apply text_tidy.
Qed.
Lemma summary_tidy g t : ~ In c_nl (summary_line g t).
Proof.
  intros X. unfold summary_line in X. apply in_app_or in X as [X|X]; [now apply fmt_d_line in X|]. apply in_app_or in X as [X|X]; [cbn in X; intuition discriminate|].
  apply in_app_or in X as [X|X]; [now apply fmt_d_line in X|]. cbn in X. intuition discriminate.
Qed.

Theorem report_read w py fetch reason fs stdin a f store rest i j failed good total w' py' fetch' reason' fs' stdin' a' f' store' rest' i' j' failed' good' total' out :
  format_word a f -> source stdin rest i -> f_json fs store = Ok j -> verify_receipt_py w py fetch f j i = (failed, Ok (good, total)) -> tidy reason failed ->
  format_word a' f' -> source stdin' rest' i' -> f_json fs' store' = Ok j' -> verify_receipt_py w' py' fetch' f' j' i' = (failed', Ok (good', total')) -> tidy reason' failed' ->
  verify_receipt_program w py fetch reason fs stdin (a :: store :: rest) = R_end false out ->
  verify_receipt_program w' py' fetch' reason' fs' stdin' (a' :: store' :: rest') = R_end false out ->
  map (fun x => (fst x, exn_text reason (snd x))) failed = map (fun x => (fst x, exn_text reason' (snd x))) failed' /\ good = good' /\ total = total'.
Proof.
  intros A S J V T A' S' J' V' T' H H'. rewrite (program_prints w py fetch reason fs stdin a f store rest i j A S J), V in H.
  rewrite (program_prints w' py' fetch' reason' fs' stdin' a' f' store' rest' i' j' A' S' J'), V' in H'. injection H as H. injection H' as H'.
  rewrite <- H' in H. apply text_lines in H; [|apply Forall_app; split; [now apply failure_tidy|constructor; [apply summary_tidy|constructor]]..].
  apply app_inj_tail in H as [H E]. apply summary_inj in E. split; [|exact E]. clear -H. revert failed' H.
  induction failed as [|x l IH]; intros [|y l'] H; try discriminate; [reflexivity|]. cbn [map] in H. pose proof (f_equal (hd []) H) as H1. pose proof (f_equal (@tl str) H) as H2. cbn [hd tl] in H1, H2. apply failure_inj in H1 as [E1 E2].
  cbn [map]. rewrite E1, E2. f_equal. now apply IH.
Qed.

(** ** QR codes and CSV lines from the standard input *)
Lemma about_fun e a b : about e a -> about e b -> a = b.
Proof.
  unfold about. intros A B. destruct e;
    repeat (destruct A as [A|A]; [try discriminate A|]); try discriminate A; injection A as ->;
    repeat (destruct B as [B|B]; [try discriminate B|]); try discriminate B; injection B as ->; reflexivity.
Qed.
Lemma join_has (sep : str) l x c : In x l -> In c x -> In c (join sep l).
Proof.
  induction l as [|y l IH]; intros I Ic; [destruct I|]. cbn [join]. destruct l as [|z l]; [destruct I as [<-|[]]; exact Ic|].
  destruct I as [<-|I]; [apply in_or_app; now left|]. apply in_or_app. right. apply in_or_app. right. now apply IH.
Qed.
Lemma part_in s alg f g c : code_parts s alg f g -> In c (f_receipt f) -> In c s.
Proof. intros (-> & _) I. apply (join_has [c_us] _ (f_receipt f)); [cbn [elements app In]; tauto|exact I]. Qed.
Lemma code_names w s e rec : code_fault w s e -> about e rec -> ~ In c_nl s -> ~ In c_nl rec.
Proof.
  intros F A N.
  assert (forall r, about e r -> ~ In c_nl r -> ~ In c_nl rec) as K by (intros r B; now rewrite (about_fun e rec r A B)).
  assert (forall alg f g, code_parts s alg f g -> about e (f_receipt f) -> ~ In c_nl rec) as P.
  { intros alg f g C B. apply (K _ B). intros I. now apply N, (part_in s alg f g). }
  destruct F as [F|alg f g F F0|alg f g F F0 F1|f g F F0|f g b e F F0 F1]; try (apply (K s); [unfold about; tauto|exact N]).
  destruct F1 as [F1|e F1 F2|F1 F2 F3|cb F1 F2 F3 F4 F5].
  - apply (K s); [unfold about; tauto|exact N].
  - destruct F2; try (apply (P _ _ _ F); unfold about; tauto). apply (K (lit "Unknown Receipt")); [unfold about; tauto|cbn; intuition discriminate].
  - apply (P _ _ _ F). unfold about. tauto.
  - apply (P _ _ _ F). unfold about. tauto.
Qed.
Lemma code_id w s r alg : fromBasicCode w s = Ok (r, alg) -> ~ In c_nl s -> ~ In c_nl (r_receiptId r).
Proof.
  intros H N I. apply fromBasicCode_spec in H as (_ & f & sg & (g & -> & _) & F & _). apply N. apply in_or_app. left. rewrite <- F in *.
  unfold payload_text. apply (join_has [c_us] _ (r_receiptId r)); [|exact I]. cbn. tauto.
Qed.
Lemma code_tidy w ks s e rec : encodable s -> ~ In c_nl s -> verifyBasicCode w (fromKeyStore ks) s = Err e -> about e rec -> ~ In c_nl rec.
Proof.
  intros En N V A. unfold verifyBasicCode in V. destruct (fromBasicCode w s) as [[r alg]|e'] eqn:B; cbn [bind fst snd] in V.
  - pose proof (code_id w s r alg B N) as Ni. destruct (qr_reads w s r alg En B) as (-> & t & R).
    assert (about e (r_receiptId r)) as A'; [|now rewrite (about_fun e rec _ A A')].
    destruct (verify_spec w (fromKeyStore ks) r t ltac:(right; eauto) R) as [(_ & E)|[(_ & _ & E)|[(_ & _ & _ & E)|(_ & _ & _ & x & E & K)]]]; rewrite E in V; try discriminate V; injection V as <-.
    + unfold about. tauto.
    + destruct (negb _ && _); unfold about; tauto.
    + unfold about. destruct K as [->| ->]; tauto.
  - injection V as <-. apply qr_diagnosis in B; [|exact En]. exact (code_names w s e' rec B A N).
Qed.
Lemma csv_tidy w ks s e rec : encodable s -> ~ In c_nl s -> verifyCSV w (fromKeyStore ks) s = Err e -> about e rec -> ~ In c_nl rec.
Proof.
  intros En N V A. destruct (csv_reads w s) as (qr & C & R & _). unfold verifyCSV in V. rewrite R in V.
  apply (code_tidy w ks qr e rec); [exact (csv_encodable w s qr En C)| |exact V|exact A].
  destruct C as (ps & ps' & -> & _ & _ & T & ->). intros I. apply RoundTrip2.join_In in I as [[I|[]]|(x & Ix & I)]; [discriminate I|].
  destruct Ix as [<-|Ix]; [destruct I|]. apply N.
  assert (exists p, In p ps /\ In c_nl p) as (p & Ip & Ic).
  { clear -T Ix I. induction T as [|p p' l l' (( a & b & -> & _ & _) & _) T IH]; [destruct Ix|]. destruct Ix as [->|Ix].
    - eexists. split; [now left|]. apply in_or_app. right. apply in_or_app. now left.
    - destruct (IH Ix) as (q & Iq & Ic). exists q. split; [now right|exact Ic]. }
  exact (join_has [c_semi] ps p c_nl Ip Ic).
Qed.
Lemma has_lines_single t ls : has_lines t ls -> Forall single_line ls.
Proof. induction 1; constructor; auto. Qed.

Theorem lines_tidy w py fetch reason f j ks stdin ls failed x : f = F_qr \/ f = F_csv -> readStoreFromJson w (load j) = Ok ks -> has_lines stdin ls -> Forall encodable ls ->
  (forall rec m, reason rec = Some m -> ~ In c_nl m) -> verify_receipt_py w py fetch f j (V_stdin stdin) = (failed, x) -> tidy reason failed.
Proof.
  intros Ff R L En Re V k e I. split; [|intros rec m _; apply Re]. intros rec A.
  assert (plain_format f) as Pf by (destruct Ff as [->| ->]; exact Logic.I).
  destruct (report_spec w py fetch f j ks (V_stdin stdin) ls Pf R L En) as (failed' & good & V' & _ & _ & F1 & _). rewrite V in V'. injection V' as <- _.
  destruct (F1 k e I) as (l & N & Ve & _). apply nth_error_In, in_map_iff in N as (y & <- & Iy).
  pose proof (has_lines_single _ _ L) as Sl. rewrite Forall_forall in Sl, En. specialize (Sl y Iy) as [Sl _]. specialize (En y Iy).
  assert (encodable (strip (char_isspace w) y)) as E1. { rewrite encodable_In in *. intros c Hc. apply En. now apply strip_In in Hc. }
  assert (~ In c_nl (strip (char_isspace w) y)) as E2 by (intros Hc; now apply Sl, (strip_In (char_isspace w))).
  destruct Ff as [->| ->]; cbn [verify_text] in Ve.
  - apply (code_tidy w ks _ e rec E1 E2); [|exact A]. destruct (verifyBasicCode w (fromKeyStore ks) _) as [u|]; [discriminate Ve|]. cbn [bind] in Ve. now injection Ve as ->.
  - apply (csv_tidy w ks _ e rec E1 E2); [|exact A]. destruct (verifyCSV w (fromKeyStore ks) _) as [u|]; [discriminate Ve|]. cbn [bind] in Ve. now injection Ve as ->.
Qed.

(** The words for a failure *)
Theorem text_worded reason e rec : about e rec -> exists m, worded reason rec e m /\ exn_text reason e = lit "At receipt """ ++ rec ++ lit """: " ++ m.
Proof.
  assert (forall m, In (e, m) (wording rec) -> exn_text reason e = lit "At receipt """ ++ rec ++ lit """: " ++ m ->
    exists m, worded reason rec e m /\ exn_text reason e = lit "At receipt """ ++ rec ++ lit """: " ++ m) as K by (intros m I E; exists m; split; [now constructor|exact E]).
  intros [->|A].
  - cbn [exn_text]. destruct (reason rec) as [[|c x]|] eqn:R; eexists; (split; [|reflexivity]).
    + apply wd_malformed. now right.
    + now apply (wd_reason reason rec (c :: x)).
    + apply wd_malformed. now left.
  - repeat (destruct A as [->|A]); [..|subst e]; (eapply K; [unfold wording; cbn [In]; intuition reflexivity|reflexivity]).
Qed.
Theorem text_tells e e' rec rec' : about e rec -> about e' rec' -> exn_text (fun _ => None) e = exn_text (fun _ => None) e' -> e = e'.
Proof.
  intros A A' H. unfold about in A, A'.
  repeat (destruct A as [A|A]); repeat (destruct A' as [A'|A']); subst e e'; cbn [exn_text] in H; unfold at_receipt in H; apply (f_equal (@rev N)) in H; rewrite !rev_app_distr, <- !app_assoc in H;
    first [repeat (apply app_inv_head in H); apply app_inv_tail in H; apply (f_equal (@rev N)) in H; rewrite !rev_involutive in H; now rewrite H
      |exfalso; cbn [lit rev app map] in H; vm_compute in H; discriminate H].
Qed.

(** Without a key store nothing is verified. *)
Theorem store_needed w py fetch reason fs stdin a f store rest i : format_word a f -> source stdin rest i ->
  (forall j ks, f_json fs store = Ok j -> readStoreFromJson w (load j) <> Ok ks) ->
  verify_receipt_program w py fetch reason fs stdin (a :: store :: rest) = R_end true [].
Proof.
  intros A S N. destruct (f_json fs store) as [j|e] eqn:J.
  - rewrite (program_prints w py fetch reason fs stdin a f store rest i j A S J). unfold verify_receipt_py. specialize (N j). destruct (readStoreFromJson w (load j)) as [ks|e]; [now elim (N ks)|reflexivity].
  - apply format_spec in A. cbn [verify_receipt_program]. destruct S; rewrite A, J; reflexivity.
Qed.
