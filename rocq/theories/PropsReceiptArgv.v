(** Calls of receipt.py and verify_receipt.py. *)
From Coq Require Import Sorted.
From Verif Require Import PyBase World Codec Receipt Json KeyStore VerifyReceipt DepExport Url StateCli ReceiptCli SpecReceipt ReceiptFacts SpecDep SpecReceiptCli
  StateArgv SpecStateArgv ReceiptArgv SpecReceiptArgv ReceiptArgvFacts ExampleWorld ExampleDep ExampleCli ExampleReceiptCli ExampleReceiptArgv.
Open Scope N_scope.

(** ** C87 the command lines of receipt.py and verify_receipt.py, and what they print *)

(** receipt.py converts if and only if it is given the names of two formats. *)
Theorem C87_receipt w py fetch stdin args raised out : receipt_program w py fetch stdin args = R_end raised out <->
  exists a b f g e, args = [a; b] /\ format_word a f /\ format_word b g /\ receipt_py w py fetch f g stdin = (out, e) /\ (raised = true <-> e <> None).
Proof. exact (receipt_done w py fetch stdin args raised out). Qed.
Print Assumptions C87_receipt.
Theorem C87_receipt_usage w py fetch stdin args : receipt_program w py fetch stdin args = R_usage <-> ~ exists a b f g, args = [a; b] /\ format_word a f /\ format_word b g.
Proof. exact (receipt_usage w py fetch stdin args). Qed.
Print Assumptions C87_receipt_usage.

(** verify_receipt.py shows its usage if and only if the words are not a format, a key store and at most one receipt. *)
Theorem C87_verify_usage w py fetch reason fs stdin args : verify_receipt_program w py fetch reason fs stdin args = R_usage <->
  ~ exists a f store rest i, args = a :: store :: rest /\ format_word a f /\ source stdin rest i.
Proof. exact (verify_receipt_usage w py fetch reason fs stdin args). Qed.
Print Assumptions C87_verify_usage.

(** Receipts given as JWS, QR code or CSV are all verified. One line is printed for each receipt that is not signed
    with the right key, with its number and the receipt it names, in order; then the numbers of receipts. The program
    ends with status 0. *)
Theorem C87_report w py fetch reason fs stdin a f store rest i j ks ls : plain_format f -> format_word a f -> source stdin rest i ->
  f_json fs store = Ok j -> readStoreFromJson w (load j) = Ok ks -> given_lines i ls -> Forall encodable ls ->
  let lines := map (strip (char_isspace w)) ls in
  exists failed good out last, verify_receipt_program w py fetch reason fs stdin (a :: store :: rest) = R_end false (lines_text (out ++ [last]))
    /\ Forall2 (fun x line => reports (fst x) (exn_text reason (snd x)) line) failed out /\ summarises good (List.length lines) last
    /\ (good + List.length failed = List.length lines)%nat /\ StronglySorted lt (map fst failed)
    /\ (forall k, In k (map fst failed) <-> exists l, nth_error lines k = Some l /\ ~ genuine w ks f l)
    /\ (forall k e, In (k, e) failed -> exists l rec, nth_error lines k = Some l /\ verify_text w py fetch (fromKeyStore ks) f l = Err e /\ about e rec).
Proof. exact (report_printed w py fetch reason fs stdin a f store rest i j ks ls). Qed.
Print Assumptions C87_report.

(** Nothing is verified or printed without a key store that can be read; the status is then 1. *)
Theorem C87_store w py fetch reason fs stdin a f store rest i : format_word a f -> source stdin rest i ->
  (forall j ks, f_json fs store = Ok j -> readStoreFromJson w (load j) <> Ok ks) ->
  verify_receipt_program w py fetch reason fs stdin (a :: store :: rest) = R_end true [].
Proof. exact (store_needed w py fetch reason fs stdin a f store rest i). Qed.
Print Assumptions C87_store.

Example C87_store_case : verify_receipt_program toy_world Py3 ex_offline no_reason store_files (lines_text ex_csvs) [lit "csv"; lit "none.json"] = R_end true [].
Proof. reflexivity. Qed.

(** The text printed for a failure names the receipt and then says in words what is wrong with it. *)
Theorem C87_words reason e rec : about e rec -> exists m, worded reason rec e m /\ exn_text reason e = lit "At receipt """ ++ rec ++ lit """: " ++ m.
Proof. exact (text_worded reason e rec). Qed.
Print Assumptions C87_words.

(** Different failures are told apart by it, whatever the names of the receipts, if no reasons are given for malformed ones. *)
Theorem C87_apart e e' rec rec' : about e rec -> about e' rec' -> exn_text (fun _ => None) e = exn_text (fun _ => None) e' -> e = e'.
Proof. exact (text_tells e e' rec rec'). Qed.
Print Assumptions C87_apart.

Example C87_apart_case : about (InvalidSignature (lit "7")) (lit "7") /\ exn_text (fun _ => None) (InvalidSignature (lit "7")) = lit "At receipt ""7"": Invalid Signature."
  /\ exn_text (fun _ => Some (lit "too short")) (MalformedReceipt (lit "a_b")) = lit "At receipt ""a_b"": Malformed receipt -- too short".
Proof. split; [unfold about; intuition|]. split; reflexivity. Qed.

(** What is printed tells which receipts failed, what with, and how many there were, if no line feeds occur in the names
    of the receipts. *)
Theorem C87_read w py fetch reason fs stdin a f store rest i j failed good total w' py' fetch' reason' fs' stdin' a' f' store' rest' i' j' failed' good' total' out :
  format_word a f -> source stdin rest i -> f_json fs store = Ok j -> verify_receipt_py w py fetch f j i = (failed, Ok (good, total)) -> tidy reason failed ->
  format_word a' f' -> source stdin' rest' i' -> f_json fs' store' = Ok j' -> verify_receipt_py w' py' fetch' f' j' i' = (failed', Ok (good', total')) -> tidy reason' failed' ->
  verify_receipt_program w py fetch reason fs stdin (a :: store :: rest) = R_end false out ->
  verify_receipt_program w' py' fetch' reason' fs' stdin' (a' :: store' :: rest') = R_end false out ->
  map (fun x => (fst x, exn_text reason (snd x))) failed = map (fun x => (fst x, exn_text reason' (snd x))) failed' /\ good = good' /\ total = total'.
Proof. exact (report_read w py fetch reason fs stdin a f store rest i j failed good total w' py' fetch' reason' fs' stdin' a' f' store' rest' i' j' failed' good' total' out). Qed.
Print Assumptions C87_read.

(** They do not if the receipts are QR codes or CSV lines from the standard input. *)
Theorem C87_lines w py fetch reason f j ks stdin ls failed x : f = F_qr \/ f = F_csv -> readStoreFromJson w (load j) = Ok ks -> has_lines stdin ls -> Forall encodable ls ->
  (forall rec m, reason rec = Some m -> ~ In c_nl m) -> verify_receipt_py w py fetch f j (V_stdin stdin) = (failed, x) -> tidy reason failed.
Proof. exact (lines_tidy w py fetch reason f j ks stdin ls failed x). Qed.
Print Assumptions C87_lines.

(** They may if the receipts are in JWS form: different receipts fail, but the same is printed. *)
Theorem C87_forged_refuted : exists w py fetch fs stdin stdin' args j failed failed' good total out, f_json fs (lit "keys.json") = Ok j /\ args = [lit "jws"; lit "keys.json"]
  /\ verify_receipt_py w py fetch F_jws j (V_stdin stdin) = (failed, Ok (good, total)) /\ verify_receipt_py w py fetch F_jws j (V_stdin stdin') = (failed', Ok (good, total))
  /\ map fst failed = [0%nat; 2%nat] /\ map fst failed' = [0%nat; 1%nat]
  /\ (forall reason, verify_receipt_program w py fetch reason fs stdin args = R_end false out /\ verify_receipt_program w py fetch reason fs stdin' args = R_end false out).
Proof. exact forged. Qed.
Print Assumptions C87_forged_refuted.

(** The status does not tell whether receipts failed. *)
Theorem C87_status_refuted : exists w py fetch fs stdin args failed j, f_json fs (lit "keys.json") = Ok j
  /\ verify_receipt_py w py fetch F_qr j (V_argument stdin) = (failed, Ok (0%nat, 1%nat)) /\ args = [lit "qr"; lit "keys.json"; stdin]
  /\ forall reason, exists out, verify_receipt_program w py fetch reason fs [] args = R_end false out.
Proof. exact status_zero. Qed.
Print Assumptions C87_status_refuted.

Example C87_calls : receipt_program toy_world Py3 ex_offline (lines_text ex_csvs) [lit "csv"; lit "qr"] = R_end false (lines_text ex_qrs)
  /\ receipt_program toy_world Py3 ex_offline [] [lit "csv"; lit "QR"] = R_usage
  /\ verify_receipt_program toy_world Py3 ex_offline no_reason store_files (lines_text ex_csvs) [lit "csv"; lit "keys.json"] =
     R_end false (lines_text [lit "Line   2: At receipt ""3"": Signature System failed. This is probably fine."; lit "2 of 3 receipts verified successfully."])
  /\ verify_receipt_program toy_world Py3 ex_offline no_reason store_files [] [lit "csv"] = R_usage.
Proof. exact ex_calls. Qed.
Example C87_case : plain_format F_csv /\ format_word (lit "csv") F_csv /\ source (lines_text ex_csvs) [] (V_stdin (lines_text ex_csvs))
  /\ f_json store_files (lit "keys.json") = Ok ex_store /\ readStoreFromJson toy_world (load ex_store) = Ok ex_ks.
Proof. exact ex_meets. Qed.
Example C87_case_tidy : verify_receipt_py toy_world Py3 ex_offline F_csv ex_store (V_stdin (lines_text ex_csvs)) = ([(2%nat, SignatureSystemFailed (lit "3"))], Ok (2%nat, 3%nat))
  /\ tidy no_reason [(2%nat, SignatureSystemFailed (lit "3"))].
Proof. split; [exact (proj1 ex_report)|exact ex_tidy]. Qed.
