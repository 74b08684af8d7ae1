# Formal model of the RKSV receipt tools

Target: ztp-at/RKSV (pinned commit, `/repo`), Python. Model and proofs: Rocq/Coq 8.16.1 in `rocq/theories`.
Properties: `properties.jsonl`. Which theorems make up which property, and with which status: `MANIFEST.json`.
Wrong programs the theorems were tried on: `seeded/LOG.jsonl`.

## Approach

* Shallow embedding: every modelled Python function is a total Gallina function, branch by branch, exceptions as
  values of `result A := Ok a | Err e`, with the library's exceptions and Python's own as separate constructors.
  Each definition cites file and lines, and states its simplifications there.
* Python 3 semantics. The repository supports 2.7 and 3; `utils.b32decode`, where they differ decisively, takes the
  interpreter generation as a parameter (`pygen`).
* Text is a list of Unicode code points (`list N`), bytes a list of numbers below 256. Numbers are unbounded.
* External behaviour is a record `world` passed explicitly to every function that needs it: SHA-256, the AES block
  function, ES256, X.509 and PEM codecs, the non-ASCII part of the Unicode database. Theorems quantify over every
  `world`; what they assume of it is a visible hypothesis (see Trusted base).
* Objects with mutable state become values handed through: `verifyDEP` returns the state object as it is
  afterwards together with the outcome, also if an exception was raised. Generators and coroutines become state machines
  (`MergingDEPStream`, the ijson event loop) or lists with a final exception.
* Process pools become a schedule parameter: number of processes, chunk size of `pool.map`, and which of the failing
  packages is reported.
* Model (`PyBase` ... `CashReg`), specifications (`Spec*.v`), proofs (`*Facts.v` and others), concrete cases
  (`Example*.v`) and theorems (`Props*.v`) are separate files. Specifications say what is to hold by positions in lists,
  octets, and relations, and do not use the loops of the model. Where a specification mentions a function of the model
  for brevity there is a theorem that pins this function down independently:
  counter decryption (C09_receipt), base 64/32 and UTF-8 (C08_rfc4648, C08_rfc3629), order of times (C14_time), natural order of IDs
  (C30_natural), amounts (C10_printed, C10_exact), parsers (C06), serial numbers (C36), store lookup (C37), backends (C13, C30).

## Files

| Model | Code |
|---|---|
| PyBase, World, Regex | Python primitives; the regular expressions used are matched by a derivative matcher |
| Codec | utils.py base 64/32 helpers, restoreb64padding, sha256 helpers; `int(s, base)`; UTF-8; `binascii.a2b_base64` with its leniency |
| PyFloat | binary64 (`SpecFloat`), `float(str)`, `round`, `int`, `'%.2f'` |
| PyTime | `datetime.strptime`/`strftime` for the receipt format |
| Algo | algorithms.py R1: hashes, chaining value, counter encryption and decryption, JWS signing and verification |
| Receipt | receipt.py: constructor checks, JWS, QR, OCR and CSV parsers and printers, predicates, shrink/expand as used by depparser |
| VerifyReceipt | verify_receipt.py: verifiers from certificate, key store; verification of all formats |
| KeyStore, Pem | librksv/key_store.py (JSON form), utils.py PEM helpers, certificates from text |
| State | verification_state.py: backends of used IDs, register and cluster states, JSON form, update without verification, arbitrary receipts |
| Json, DepBase, DepParser | depparser.py: ijson events, file, stream and certificateless stream parsers, dictionary parser, chunks |
| Verify | verify.py: verifyCert, verifyGroup, verifyDEP, verifyParsedDEP with packages, merging and pools |
| Url | url_receipt_helpers.py |
| DepExport | depexport.py, split.py, merge.py, convert.py conversions |
| StateCli | verification_state.py (top level): all commands, arguments after parsing |
| KeyStoreCli | key_store.py (top level): all commands, arguments after parsing; librksv/key_store.py readStore, writeStore; configparser for what is needed: sections, options, comments, continuation lines; cert_extract.py |
| ReceiptCli | receipt.py and verify_receipt.py (top level). Output and standard input are texts; the report of verify_receipt.py is given by the numbers and exceptions in it, not by its wording; the network is an oracle |
| Gui | rktool.py: loading, displaying and verifying DEPs, viewing and verifying receipts, the key store. Worker processes run as in Verify; widgets, threads and abortion are left out, an action either is done, displays an exception, or loses it |
| Pool | utils.py, verify.py: what happens to tasks, results and exceptions on their way between the processes of a pool (pickling of certificates, keys, key stores and exceptions, Python 3) |
| Cli | verify.py (top level): its four ways of verifying, state files, arguments after parsing |
| Argv | verify.py (top level): sys.argv, exit status; librksv/utils.py depParserChunkSize |
| StateArgv | verification_state.py: sys.argv, files, printStateField, printCashRegisterState, printClusterState |
| KeyArgv | key_store.py: sys.argv, files, standard input |
| DepArgv | split.py, merge.py, convert.py: sys.argv, files |
| ReceiptArgv | receipt.py, verify_receipt.py: sys.argv, texts of exceptions, what is printed |
| DemoArgv | demo.py: sys.argv, files |
| ExtractArgv | cert_extract.py: main program; entering the directory is an oracle |
| OverrideText | librksv/cashreg.py MangledReceipt.toJWSString with `jwsOverride`, the receipts of one register and the DEP exported from them |
| CashReg | cashreg.py, sigsys.py (working and broken devices) |
| Demo | demo.py, with clock and random numbers as input |
| RunTest | librksv/run_test.py runTest (without `jwsOverride`; devices with their certificates are given) and the loop over DEPs of librksv/test/test_verify.py (`parse=False`) |
| JsonText | utils.py skipBOM and readJsonStream, Python's json scanner and encoder, FullFileDEPParser |
| Remote | librksv/sigsys.py SignatureSystemATrustMobile, and demo.py with it. The service is an oracle: for each request a function from payloads to replies (error, no JSON, document) |
| Override | librksv/cashreg.py: MangledReceipt and CashRegister.receipt with overrides, and a register's receipts with one override each |
| TestVerify | librksv/test/test_verify.py _testVerify (both ways, expected exceptions) and testVerify |
| TestSetup | librksv/run_test.py runTest: keys, certificate chains, key store and devices made for a test; testVerify with them. Random numbers, new keys and new certificates come from the oracle `maker` |
| TestFiles | run_test.py: arguments, key material, names of files |
| TestMulti | librksv/test/test_verify.py:315-354 testVerifyMulti, printTestVerifyResult, printTestVerifySummary; test_verify.py: arguments, generated specifications, report, exit status |
| Host | receipt_host.py with DEPs, its answers, getBasicCodeFromURL |
| View | rktool.py: ViewReceiptWidget (what is displayed of a receipt, keys, verification) |

Not modelled: JSON text in the models of the programs (they start from JSON trees or from ijson's events of a tree; C68 proves of Python's own reader
and writer that text and trees correspond, for ijson this is taken for granted), limits of nesting and integer length in JSON, file and terminal I/O, gettext,
the widgets of the GUI (rktool.py, main.py; of the views of receipts and DEPs their contents and buttons are modelled), image decoding, network access (services are oracles), command
line parsing (but for verify.py, verification_state.py, key_store.py, split.py, merge.py, convert.py, receipt.py, verify_receipt.py, demo.py, cert_extract.py, run_test.py and test_verify.py), CPython's 4300 digit limit of `int`, RSA keys (PyJWT raises TypeError on them), `jwsOverride` in test specifications with several registers or DEPs (see OverrideText),
the contents of certificates besides serial number, public key and signature.
`%Y` of `strftime` is glibc's (no padding of years below 1000). ijson's prefix is the path joined with dots. Python
objects that are no text where a text is expected are modelled only where JSON can produce them.

## Trusted base

* Coq's kernel (8.16.1) and `coqchk`. No axioms of our own, no admitted proofs, no kernel flags.
* The transcription of Python into Gallina as cited, and the behaviour of Python's library functions it contains.
* Assumptions about external code, as hypotheses of the theorems that need them, satisfied by the toy world of
  `ExampleWorld.v` (toy_hash_ok, toy_aes_ok, toy_pem_ok, toy_key_pair, toy_cert_keys), so that no theorem is vacuous:
  * `hash_ok`: SHA-256 yields 32 octets. Nothing is assumed about collisions; theorems exhibit them instead (C19).
  * `aes_ok`: the block function yields 16 octets. (AES itself need not be injective for the theorems about counter mode.)
  * `pem_ok`: loading what `public_bytes` wrote, also with other line breaks, gives the same object.
  * `cert_keys_ok`: the public key of a loaded certificate can be written and loaded as any other (C65 only). That a pool whose result
    cannot be unpickled never yields it is CPython's behaviour and part of the model.
  * `prints`: Python's `str` of a finite float is a decimal notation of a number to which the float is the nearest (C70 only; exact_prints
    shows a function that does so).
  * `key_pair`: signatures made with a private key verify under its public key and have 64 octets (C39 and the theorems built on it).
  * `maker_ok`: new key pairs belong together; serial numbers are positive; the number after `AT` is between 1 and 999; a new certificate can be
    loaded, has the serial number and public key asked for, and counts as signed by another one if and only if the private key used belongs to that
    one's public key (C78 on; toy_maker_ok shows a maker that does so). For C79 also `keys_apart`: key pairs made for different purposes differ; and
    `fingerprints_apart`: certificates with different public keys have different SHA-256 fingerprints.
* Axioms as listed by `Print Assumptions` (under every theorem in `Props*.v`). `closed` = "Closed under the global context".
  R = the axioms of the standard library's real numbers and what Flocq's lemmas use of the standard library:
  `ClassicalDedekindReals.sig_forall_dec`, `ClassicalDedekindReals.sig_not_dec`, `Classical_Prop.classic`,
  `FunctionalExtensionality.functional_extensionality_dep`. Nothing else occurs.

| File | Theorems | Print Assumptions |
|---|---|---|
| PropsCodec | C08_utf8, C08_b64, C08_b64_canonical, C08_b64_accepts, C08_padding, C08_b32, C08_b32_py3_refuted, C08_rfc4648, C08_rfc3629, C09_counter_roundtrip, C09_encryption_domain, C09_decrypt_injective | closed |
| PropsReceipt | C01_jws_roundtrip, C01_canonical_segments, C02_jws_to_qr, C02_jws_qr_jws, C02_qr_roundtrip, C02_surrogates_refuted, C03_ocr_py2, C03_ocr_canonical, C03_ocr_py3_always_fails, C03_ocr_py3_refuted, C03_ocr_py2_refuted, C04_csv_roundtrip, C04_csv_unsafe_refuted, C05_parsers_clean, C05_surrogates_refuted, C06_jws_grammar, C06_qr_grammar, C06_constructor, C06_unambiguous, C07_system_type, C41_shrink_expand, C41_expand_shrink | closed |
| PropsDep | C11_determined, C11_chaining, C12_signatures, C13_unique, C13_sorted, C14_consistency, C15_counter, C16_start, C17_restore, C18_exact, C18_groups, C19_same_length, C19_complete, C20_parts, C20_error, C20_groups, C20_group, C31_cluster, C31_no_gap, C32_failed, C32_failed_parallel, C32_succeeded, C32_succeeded_parallel, C32_retry_refuted, C35_chain | closed |
| PropsFloat | C10_printed, C10_unbounded_refuted | closed |
| PropsFloat | C10_exact, C10_exact_jws, C10_zero, C15_printed, C16_printed | R |
| PropsState | C21_update, C21_package, C21_middle_refuted, C30_merge, C30_order, C30_sorted, C34_roundtrip, C34_read, C34_wf, C34_order | closed |
| PropsPar | C22_accepts, C22_exact, C22_usual, C22_middle_refuted, C23_rejected, C23_refuted, C23_one, C24_size, C24_refuted, C27_parts, C27_text_refuted, C29_balance, C29_batches, C29_package | closed |
| PropsInc | C25_file, C25_unlimited, C25_stream, C25_stream_refuted, C25_names_refuted, C26_agree, C26_implied, C22_file, C28_exact, C28_stream, C28_required, C28_exceptions, C28_dict, C28_regular, C28_refuted | closed |
| PropsKeys | C36_hexadecimal, C36_decimal, C36_decimal_refuted, C36_certificate, C36_mismatch, C37_map, C37_map_total, C37_json, C37_json_key, C37_json_refuted, C38_lines, C38_strip, C38_export, C40_shape, C40_exists, C40_accepted, C40_only, C40_url, C40_segment, C40_fragment, C40_hosted, C40_verified | closed |
| PropsForm | C44_signed, C44_exact, C44_unique, C44_refuted, C44_encodings, C45_qr, C45_csv, C45_ocr, C45_encodings, C45_marker_refuted | closed |
| PropsMiddle | C33_middle, C33_cancellation_refuted, C33_start | closed |
| PropsExport | C42_merge, C42_chain_refuted, C42_collected, C42_any_use, C42_order_refuted, C43_export, C43_default_refuted, C43_split, C43_split_contents, C43_split_total, C43_split_refuted, C43_merge, C43_merge_total, C43_merge_refuted | closed |
| PropsCashReg | C39_accepted, C39_subcent_refuted, C39_failed_call_refuted | R |
| PropsCounter | C09_encryption, C09_receipt, C09_determined | closed |
| PropsNatural | C30_pieces, C30_natural, C30_check, C30_foreign, C30_check_refuted, C14_time | closed |
| PropsCli | C46_verifies, C46_options, C46_written, C46_continue, C47_parts, C47_split | closed |
| PropsCrypto | C48_vectors, C48_reuse, C48_registers_refuted, C49_without_key, C49_key_later_refuted | closed |
| PropsClean | C50_clean, C50_set, C50_amounts_refuted, C50_parallel, C50_incremental, C50_program_refuted | closed |
| PropsClean | C50_short, C50_program | R |
| PropsConvert | C51_table, C51_back, C51_verdict, C51_line_feeds_refuted, C51_certificates_refuted | closed |
| PropsStateCli | C52_commands, C52_ids, C52_reset_refuted, C53_update, C53_continues, C53_ids_refuted, C53_document, C54_formats, C54_middle, C54_start | closed |
| PropsKeyStoreCli | C55_commands, C55_output, C55_create, C55_sign_refuted, C56_legacy, C56_ids_refuted, C56_comment_refuted, C56_colon_refuted, C57_complete, C57_sound, C57_order_refuted, C57_serial_refuted, C57_hollow_refuted | closed |
| PropsKeyFile | C58_file, C58_determined, C58_rejected, C58_empty_refuted, C58_serial_refuted, C58_names_refuted | closed |
| PropsReceiptCli | C59_converted, C59_back, C59_lines, C59_line_feeds_refuted, C59_ocr_py3_always_fails, C60_report, C60_lines, C60_formats, C60_blank_refuted, C60_device_refuted, C60_surrogates_refuted, C60_network_refuted | closed |
| PropsGui | C61_displayed, C61_exact, C61_no_key, C62_exact, C63_found, C63_exported, C63_import, C64_load, C64_load_refuted, C64_key_refuted, C64_receipt, C64_receipt_refuted, C64_dep_receipt_refuted, C64_store, C64_import_refuted | closed |
| PropsGui | C64_dep | R |
| PropsPool | C65_ends, C65_library, C65_same, C65_lost, C65_refuted | closed |
| PropsDemo | C66_accepted | R |
| PropsDemo | C66_clock_refuted | closed |
| PropsRunTest | C67_accepted, C67_index_refuted | R |
| PropsRunTest | C67_zero_refuted | closed |
| PropsTestVerify | C72_positive, C72_verdict, C72_alike, C72_fault, C72_receipts, C72_schedule_refuted, C72_random_refuted, C72_receipt_refuted | closed |
| PropsTestVerify | C72_accepted | R |
| PropsRemote | C73_sign, C73_fields, C73_reply_refuted, C73_demo_refuted | closed |
| PropsRemote | C73_accepted, C73_again_refuted, C73_demo | R |
| PropsOverride | C74_none, C74_fields | closed |
| PropsOverride | C74_caught, C74_signature_refuted | R |
| PropsJsonText | C68_grammar, C68_stream, C68_roundtrip, C68_ascii, C68_pairs_refuted, C68_state, C68_store, C68_dep, C68_full | closed |
| PropsHost | C69_dep, C69_accepted, C69_started, C69_lines, C69_lines_started, C69_client | closed |
| PropsView | C70_opened, C70_viewed, C70_typed, C70_first, C70_loaded, C70_actions | R |
| PropsView | C70_verified, C70_large_refuted, C70_array_refuted, C70_year_refuted | closed |
| PropsDiag | C71_diagnosis, C71_right, C71_located, C71_fault, C71_cert, C71_parallel_refuted | closed |
| PropsRunTestOver | C76_outcomes, C76_verdict | R |
| PropsReading | C77_jws, C77_qr, C77_printed | closed |
| PropsReading | C77_garbled, C77_outcomes, C77_verdict | R |
| PropsLast | C75_both, C75_file, C75_same_refuted | closed |
| PropsLast | C75_injected | R |
| PropsSetup | C78_devices, C78_rules, C78_unreadable | closed |
| PropsSetup | C78_passes | R |
| PropsFlaw | C79_dep, C79_file, C79_unique | closed |
| PropsFlaw | C79_first, C79_flawed | R |
| PropsTestFiles | C80_files, C80_names, C80_status_refuted | closed |
| PropsTestFiles | C80_accepted | R |
| PropsTestMulti | C81_turn, C81_multi, C81_single, C81_library, C81_line, C81_report_refuted, C81_default_refuted | closed |
| PropsTestMulti | C81_passes | R |
| PropsOcr | C82_base32, C82_ocr, C82_ocr_faults, C82_python3, C82_csv, C82_csv_faults, C82_text_refuted, C82_semicolon_refuted | closed |
| PropsArgv | C83_command, C83_documented, C83_new, C83_usage, C83_raises, C83_success, C83_status, C83_status_refuted, C83_documented_refuted, C83_environment_refuted | closed |
| PropsStateArgv | C84_command, C84_usage, C84_session, C84_others, C84_show, C84_told, C84_shown, C84_shown_refuted, C84_show_refuted | closed |
| PropsKeyArgv | C85_command, C85_usage, C85_prints, C85_session, C85_others, C85_ini_refuted | closed |
| PropsDepArgv | C86_split, C86_split_usage, C86_merge, C86_merge_usage, C86_convert, C86_convert_usage, C86_roundtrip, C86_verdict, C86_alphabetical_refuted, C86_leftover_refuted | closed |
| PropsReceiptArgv | C87_receipt, C87_receipt_usage, C87_verify_usage, C87_report, C87_store, C87_words, C87_apart, C87_read, C87_lines, C87_forged_refuted, C87_status_refuted | closed |
| PropsDemoArgv | C88_accepted, C88_service | R |
| PropsDemoArgv | C88_usage, C88_number, C88_printed | closed |
| PropsExtractArgv | C89_trusted, C89_accepted, C89_any, C89_usage | closed |
| PropsOverrideText | C90_apart, C90_text, C90_own, C90_last | closed |
| PropsOverrideText | C90_caught, C90_chain_refuted | R |


(Other axioms in the library list of `coqchk` come from loaded but unused parts of the standard library: module signatures of
`Rdefinitions` and `ssrunder`.)

## Properties

For each: what is modelled, how it is proved, result. Every theorem has an `Example` beside it that meets its hypotheses.

* **C01 JWS round trip** - parser and printer of Receipt.v. Codec laws and inversion of split/join. Proved; the text itself is recovered iff header and payload segments are canonical.
* **C02 QR round trip** - as C01 with conversion between base 64 alphabets. Proved. Finding 2 for texts with lone surrogates.
* **C03 OCR round trip** - interpreter generation as parameter. Partial: Python 2 proved except for a degenerate counter, Python 3 refuted (findings 1, 3).
* **C04 CSV round trip** - Proved under its proviso; the proviso is needed (finding 4).
* **C05 Parsers reject cleanly** - Exception constructors, case analysis. Proved for encodable texts.
* **C06 Accepted receipts are well formed** - Equivalence of parsers with the grammar of SpecReceipt.v, and unambiguity. Proved. The grammar shows what the patterns tolerate: a final line feed, digits of other scripts.
* **C07 System type and certificate field agree** - Proved for all constructor arguments.
* **C08 Codec laws** - Induction in groups; equivalence with bit level definitions of RFC 4648 and RFC 3629. Proved; base 32 decoding under Python 3 refuted.
* **C09 Counter encryption** - Two's complement, counter mode octet by octet over an arbitrary block function. Proved.
* **C10 Amounts** - binary64 by SpecFloat, error analysis with Flocq. Proved with the bound; refuted without (finding 5).
* **C11 - C18 Conditions of acceptance** - SpecDep.v states validity of a sequence by positions; verifyGroup/verifyDEP proved equivalent, including the final state (C18); C11 - C17 are read off in terms a user understands. Proved.
* **C19 Tamper evidence** - induction from the end; conclusion is equality or an explicit collision. Proved, also for complete DEPs of different lengths.
* **C20 Verification in parts** - equation of the loop on concatenations, cuts also inside of groups. Proved.
* **C21 Update without verification** - Proved for usual registers; refuted for states from fromArbitraryReceipt (finding 6).
* **C22 Parallel equals sequential** - packages, predicted states, merge of IDs, any schedule. Proved for usual clusters and isolated tasks; finding 7 for others.
* **C23 nprocs without pool** - refuted (finding 8); proved for DEPs of one chunk. Partial.
* **C24 Chunk size** - refuted for DEPs with several certificateless groups (finding 9), proved for the rest. Partial.
* **C25 Incremental parser, C26 dictionary parser** - event automaton against the specification of chunking. Proved for names without dots; findings 10, 11.
* **C27 Part count** - Proved for DEPs whose receipt elements are arrays (finding 12 otherwise).
* **C28 Malformed DEPs** - exact characterisation of acceptance and of the exceptions. The claim that only the library's exceptions occur is refuted (finding 13). Partial.
* **C29 Partitioning** - list lemmas and a bound per package. Proved.
* **C30 Backends** - merging, order, natural order pinned down by pieces of IDs. Proved; finding 14.
* **C31 Cluster chaining, C32 failed verification, C35 certificate chains** - Proved; finding 15.
* **C33 Starting in the middle** - Proved for standard receipts; finding 16 for others. C33_start: the DEP of one register of a cluster is accepted on its own from the state made from its start receipt.
* **C34 State serialisation** - Proved on JSON values.
* **C36 Serial lookup** - numerals against int()/hex. Partial: decimal notation refuted if it collides with another ID (finding 17).
* **C37 Key store, C38 PEM** - Proved; finding 18.
* **C39 Generated DEPs verify** - simulation of the register by the specification of C18, with C10. Proved for orderly requests; findings 19, 20.
* **C40 URL hash** - Proved.
* **C41 Shrinking** - Proved.
* **C42 Merging groups** - MergingDEPStream as an object with shared state, used in any order. Partial: findings 21, 22.
* **C43 Export, split, merge** - Proved with conditions; findings 23, 24, 25.
* **C44 Signed string** - Refuted for non-canonical base 64 (finding 26), proved among canonical texts. Partial.
* **C45 Formats** - Proved; finding 27.
* **C46 Options of verify.py** - the script as a function from JSON files to written state or exception; C22 and C25 for the four paths. C46_verifies says which state and which register are taken for each argument. Proved for regular files and usual states.
* **C47 Calls with state files** - C20, C34, C43 and the index of the register. Proved.
* **C48 Initialisation vectors** - from the uniqueness of IDs (C13) and the relational specification of counter mode (C09). Proved for the receipts of a register; false between registers (C48_registers_refuted).
* **C49 Verification without key** - both verdicts are compared through the exact characterisation C18. Proved.
* **C50 Clean rejection** - every step of verification raises exceptions from a given set only; induction over the DEP; the parser by C28. Proved with the exact exceptions to it.
* **C51 Conversion to CSV and back** - the parser without certificates finds the same receipts as the one with them (simulation of states); lines of the table are those of C04, joined and separated again; the export is C43's. The verdict by C18. Proved for `tabular` receipts.
* **C52 Commands of verification_state.py** - model of the script as a function from command and state file to state file; specification as a relation between states; both directions. Proved.
* **C53 updateCashRegister** - pieces of the DEP from the parser without certificates (C51); C21 for each piece, put together. Fewer used IDs never hurt. Files that are no DEPs are refused (C53_document). Proved.
* **C54 States from receipts** - C02 and C04 for canonical receipts; blanks around arguments; with C33 the states serve for verification from that receipt on (C54_middle, C54_start). Proved.
* **C55 key_store.py** - invariant of stores that were read (read_ok), reading back what is written, cases of commands. Proved for signless certificate IDs.
* **C56 INI files** - the lines written are read as the options written; the replacement of colons is undone for ini_id. Proved.
* **C57 cert_extract.py** - chunks of C25 for the parser without certificates; a measure that no chunk is delivered before the end if there are few receipts; invariant that certificates come from texts. Proved with condition on order or chunk size.
* **C58 Key store files** - relation entry_says per entry, the last entry counts; integer literals characterised exactly (py_int_spec); exceptions by cases. Proved but for one exception.
* **C59 receipt.py** - the lines are those of a text whose lines have no line breaks; each format is read back by the round trips of C01-C04. Induction over the lines for the general form.
* **C60 verify_receipt.py** - `genuine`: parsed, not of a failed device, signed with the key that key_of names. Induction over the lines with the counters; every exception of parsers and verify is one of receipts (C05, verify_spec).
* **C61 DEPs in the graphical program** - parsing in chunks of one group gives the groups of the DEP (C24, C26); prediction and distribution as in C22 and C29 with one batch per package; C18's sequential verification. Proved.
* **C62 Receipts in the graphical program** - both make the same checks, verify returns its argument. Proved.
* **C63 The key store of the graphical program** - invariant read_ok of C55 for all actions. Proved for signless certificate IDs.
* **C64 Actions end** - sets of exceptions as in C50, compared with those handled. Partial, with the cases where it is false.
* **C65 Worker processes** - tasks and results are sent through pickle; key stores and certificates survive (pem_ok), and of the exceptions all but one. Exact: if there is no result, some worker raised that one.
* **C66 Demo** - the requests the program makes of its register meet the conditions of C39: rounded random numbers are amounts in cents, the counter stays small, numbers in five digits are in natural order. Refuted for the end of summer time.
* **C67 Test specifications** - invariant of runTest's loop: the registers' states are runs of their instructions (`heap_inv`), the DEPs made so far verify to the cluster those runs lead to, `reg2LastDEP` names DEPs of the right registers; per DEP, C14's history of one register continued from the previous register's start receipt (`run_valid_past`). Refuted for registers added while an older one is in use.
* **C68 JSON texts** - SpecJsonText gives the grammar as inductive relations between values and texts. The scanner is proved complete by mutual induction on derivations (with fuel twice the length) and sound by induction on fuel; the writer produces texts of the grammar, by induction on values, so that the round trip follows from completeness.
* **C69 Receipt host** - both modes store the texts one after the other; induction over the texts gives the newest with a hash. C51's certless parser, C18 for accepted DEPs, C45 for the verdict of clients. Proved.
* **C70 Receipt view** - displayed numbers are specified as decimal texts within half a cent of the amount; Flocq error bounds for conversion, division by 100 and back from any decimal notation of the same float. An invariant over sequences of actions. Proved; large counters, years before 1000 and JSON key files that are no objects refuted.
* **C71 Diagnosis** - SpecDiag.v says for each exception which rule of SpecDep or SpecCluster it stands for (`fault`, `cert_fault`, `group_fault`) and what a right `diagnosis` of a list of groups is; the exceptions of each check of verify_step are traced to a fault, lifted by induction over receipts and groups, and every fault is shown to contradict validity; the receipt reported is the first after a valid sequence (C71_located).
* **C72 Test harness** - test_verify.py's second way of verification (file, pool, random chunk size, comparison of parsers, state without verification) is modelled beside the loop of C67; with C21, C25 and C53 both ways are shown to agree on every DEP that runTest exports and that is accepted; the comparison with the expected exception is characterised by a specification of the class hierarchy (SpecTestVerify.v); C71 gives the meaning of a passed negative test.
* **C73 Remote signatures** - the receipt method is modelled for any method `sign`; that the service gives the JWS of the payload (`serves`) is the only assumption, and an induction over the requests reduces the claims to C39 and C66 with a device that changes from request to request.
* **C74 Overrides** - SpecOverride.v lists overrides with the exception that is due (`injected`); a receipt with an override is shown to equal the regular receipt of another request or to differ from it in one part; the rules it keeps follow from C39's sequence invariants, the rule it breaks from the override, and C71_located gives the exception.
* **C75 Faults of the last receipt** - LastFault.v: all packages but the last succeed as in C22, so that the error of the last package is the one raised. LastCaught.v: the three ways in which the last package can fail (prediction, verification with fresh IDs, merge of IDs) are faults of the last receipt in the sense of SpecDiag.v. LastTheorems.v: documents, files, overrides.
* **C76 Tests with a faulty last receipt** - RunTestOver.v: an invariant of the loop of runTest gives the receipts exported (`makes`), injected_place the position of the fault, both_dict and both_file (C75) the exception of both ways, and C72_verdict the verdict.
* **C77 Unreadable receipts** - SpecReading.v classifies faulty texts by the grammar of SpecReceipt.v, with the exception due for each (`text_fault`, `code_fault`), and says what this means for a text printed from elements (`printed_fault`); ReadingFacts.v follows the parser stage by stage and shows both directions; SpecGarbled.v lists overrides that make a receipt unreadable, GarbledFacts.v finds their printed_fault, GarbledTest.v the outcome of tests (with RunTestOver.last_outcomes). C71 and C75 use text_fault for texts that cannot be read.
* **C78 Tests with their keys** - the loop of runTest over devices by induction: every step extends the key store without touching what earlier devices need (serial numbers apart), the chain of a device is signed in turn up to the root, and serial numbers in decimal or hexadecimal notation lead back to the key. The written key store is read back (C63). Instructions then meet the rules of C67, and C72 gives the verdict. Proved.
* **C79 Untrusted certificates** - SpecDiag.cert_fault says which exception is right about a certificate chain. CertFault.v follows both ways of verification up to the group (as in LastFault.v, but the package fails before its first receipt); CertTest.v shows that the first group exported by a test is that of its first device, whatever the other instructions do; FlawFacts.v computes the key store of a flawed specification (SpecFlaw.v) and finds its cert_fault; that the instructions are in order is shown with another key store that trusts the certificate. Proved.
* **C80 Files of run_test.py** - SpecTestFiles.command describes complete command lines, `register_of` the register a DEP belongs to by its elements "Fortgesetztes-DEP" and "Vorheriges-DEP" (the position among the DEPs that are not continued, or the register of the DEP named), `verified_each` calls of verify.py with the state passed on. TestFilesFacts.v shows the command line equivalence, follows `verify_deps` (accepted by C67 with the devices of C78) call by call: exported DEPs are regular files, so C46 turns each verifyDEP into a call of verify.py with any options; the state is read back as it was written (C23), the key store as well (C78).
* **C81 Groups of test cases** - SpecTestMulti.in_turn describes the order of the combinations by positions (strictly ascending, complete), `alone`/`escapes` the outcome of testVerify for the case alone, `rows_for` rows by position, `counted`, `summary_of` and `right_status` the report by numbers of rows with each result. TestMultiFacts.v shows that the generated specifications are those in turn, that the generator yields one row per specification up to the first exception, and that columns filled with spaces and dots can be read back. That cases in order pass is C78.
* **C82 OCR codes and CSV lines** - SpecOcr.base32 defines the octets of a base 32 text by bits (SpecCodec.bits, with arbitrary bits after the last octet), `ocr_code` and `csv_code` the QR code an OCR code or CSV line stands for, `ocr_fault` the faults in order. OcrFacts.v shows that b32decode computes exactly this relation, and reduces both readers to C77_qr.
* **C83 Command line of verify.py** - SpecArgv.v describes the parts of the usage message as relations between words and meanings; `documented` puts them together, `understood` adds that words are taken greedily. ArgvFacts.v shows the equivalence with Argv.verify_argv part by part, excludes IndexError, and composes it with C46 for the whole program (`verify_program`).
* **C84 Calls of verification_state.py** - StateArgv.v maps sys.argv and the files to the file written and the output. SpecStateArgv.v lists the lines of the usage message (`asks`) and the numbers of words (`arities`); StateArgvFacts.v shows the equivalences command by command, that every document written stands for a state (with C52 for the editing commands and wf_used for the others), by induction the invariant over `session`, and that the lines of show can be read back.
* **C85 Calls of key_store.py** - KeyArgv.v maps sys.argv, standard input and the files to the file written and the output. SpecKeyArgv.v lists the lines of the usage message (`store_asks`) and the numbers of words (`store_arities`); KeyArgvFacts.v shows the equivalences, that every document written by a command other than fromLegacyIni opens (also with negative serial numbers), and by induction the invariant over `store_session`.
* **C86 Splitting and merging from the command line** - DepArgv.v maps sys.argv to the files written or the document printed. The contents of the parts (C43_split_contents) are texts of the DEP because these are in the usual encoding; merge_groups of C43 gives the contents of the result, also that a DEP without certificates stays one group; acceptance follows because it depends on texts, certificates and trust only (`same_receipts`).
* **C87 Receipts from the command line** - ReceiptArgv.v maps sys.argv and the standard input to what is printed, with the texts of the exceptions. That lines of the report can be told apart follows because numbers have no colon; that names have no line feeds follows for QR codes and CSV lines from the classification of faults (C77, C82): names are the line itself, a part of it, or fixed. Refuted for JWS by two inputs with the same report.
* **C88 Demonstration** - DemoArgv.v maps sys.argv to the DEP printed. The three calls of key_store.py are followed with C55 (what is in the file after each command); the DEP is accepted by C66, it is a regular file because it is exported as one group, and verify.py is followed with C46 and C83. The AES key file is one line in base 64, because `b64decode` accepts nothing else, so both programs read the same key. C88_service follows C73 in the same way for the signature service.
* **C89 Extracted certificates, added** - ExtractArgv.v maps sys.argv and the DEP to the files of the directory. The files hold PEM texts without carriage returns, so key_store.py reads what was written; C57 gives the file of each certificate, C55 the key store after each call; the calls are followed by induction over the list of certificates, which may be in any order and with repetitions. C89_accepted follows from the exact acceptance condition C18, in which the key store occurs only in the trust rule if all groups have certificates.
* **C90 Replaced texts** - OverrideText.v adds the replaced text to the receipts of Override.v, to be used when the DEP is exported. C90_apart is an induction over the requests that forgets the texts; C90_text relates the DEP to the relation `replaced` of SpecOverrideText.v. C90_own is equality with the exporter of DepExport.v. C90_caught joins the validity of regular receipts (C39) with the diagnosis of the first faulty receipt (C71) and of its text (C77). The last sentence is false, as the register goes on from the text it made itself (C90_last): C90_chain_refuted.

## Findings

Claims that are false of the code as modelled, each with a witness in a theorem named `..._refuted`.

1. OCR codes cannot be read under Python 3: `utils.b32decode` calls `str.decode` (AttributeError for every code the library prints). C03_ocr_py3_always_fails, C08_b32_py3_refuted.
2. Lone surrogates: accepted in IDs by fromBasicCode, but such receipts cannot be printed; the parsers raise UnicodeEncodeError in other fields. C02_surrogates_refuted, C05_surrogates_refuted.
3. A turnover counter field that is a lone line feed passes the pattern (`$` matches before a final line feed); the OCR form cannot be read again. C03_ocr_py2_refuted.
4. CSV: a semicolon or blank at the ends of an ID breaks the round trip. C04_csv_unsafe_refuted.
5. Sums beyond 2^53 cents are counted wrongly because of binary floating point. C10_unbounded_refuted.
6. updateFromDEPGroup sets a start receipt for states from fromArbitraryReceipt, verification does not. C21_middle_refuted.
7. Hence parallel verification from the middle yields another state than sequential verification. C22_middle_refuted.
8. verifyParsedDEP without pool and nprocs > 1 rejects every valid DEP of two or more chunks, since the packages share one object for the used IDs; so does a pool with more than four packages per worker. C23_rejected, C23_refuted.
9. Several groups without certificates are rejected by verifyDEP, but accepted by verifyParsedDEP if chunk boundaries separate them. C24_refuted.
10. The stream parser refuses certificateless DEPs with at least as many receipts as the chunk size. C25_stream_refuted.
11. An unknown element whose name contains dots can be taken for the certificate of a group, since ijson joins names with dots. C25_names_refuted.
12. `Belege-kompakt` given as a text is taken for a list of receipts of one character; the number of parts is exceeded. C27_text_refuted.
13. Malformed DEPs raise IndexError, TypeError, AttributeError, UnicodeEncodeError. C28_refuted (C28_exceptions, C28_dict say which and when).
14. The natural-order backend raises ValueError or TypeError on IDs with digits of other scripts (superscript two, Arabic-Indic three). C30_check_refuted, C30_foreign.
15. A failed verification of a new register leaves an empty register in the state; the next attempt fails with NoStartReceiptForLastCashRegister. C32_retry_refuted.
16. Starting in the middle with a cancellation or training receipt rejects valid DEPs. C33_cancellation_refuted.
17. A decimal serial is first read as hexadecimal; the key of another certificate may be used. C36_decimal_refuted.
18. Certificates stored with putKey under another ID are lost in JSON. C37_json_refuted.
19. Amounts with fractions of a cent: printed and counted amounts differ, the DEP is rejected. C39_subcent_refuted.
20. A call of CashRegister.receipt that raises has already changed the counter; the DEP of the receipts made is rejected. C39_failed_call_refuted.
21. MergingDEPStream compares a chain with itself; of adjacent groups with the same certificate the second chain is lost. C42_chain_refuted.
22. Interleaved reading of merged groups changes the order of receipts. C42_order_refuted.
23. DEPExporter.export's default argument is the builtin `id`; the result cannot be parsed. C43_default_refuted.
24. split.py and convert.py write receipts in canonical encoding, to which the successors of non-canonical receipts are not chained: valid DEPs become invalid. C43_split_refuted.
25. Because of 21 a rejected sequence of DEPs is accepted after merge.py. C43_merge_refuted.
26. Receipts are malleable: several texts for the same payload and signature are accepted. C44_refuted, C44_encodings.
27. A marker of a failed signature device in non-canonical base 64 is an invalid signature as JWS and a failed device as QR code. C45_marker_refuted.
28. Initialisation vectors of different registers with the same key may coincide, since register ID and receipt ID are joined without separator (register A1 and receipt 2, register A and receipt 12). C48_registers_refuted.
29. A state made without key cannot be continued with key: a valid DEP is then rejected with an invalid turnover counter. C49_key_later_refuted.
30. verify.py accepts `state continue` only for a state with registers; with a new state it always fails. C46_continue.
31. A legal receipt with an amount of 310 digits makes verification with key end in an OverflowError of Python, or a ValueError with amounts of both signs; without key it is accepted. C50_amounts_refuted.
32. A receipt ID may contain line feeds: json2csv writes it into the table as it is, and csv2json fails for the result. C51_line_feeds_refuted.
33. A DEP that was converted to CSV and back has no certificates, and is refused if the key store only knows their issuer. C51_certificates_refuted.
34. `verification_state.py resetCashRegister` clears the used IDs of the whole cluster. C52_reset_refuted.
35. `verification_state.py updateCashRegister` does not record the IDs of the DEP, so that their reuse goes unnoticed, although it is to act "as if the DEP had been verified". C53_ids_refuted.
36. `verification_state.py` refers to `getBasicCodeFromURL` without importing it: the input format url always ends in a NameError (by inspection; the model has it fail).
37. A certificate in a key store file under an ID like `--5` (one sign is removed on every reading) changes its ID with every command that rewrites the file. C55_sign_refuted.
38. `key_store.py toLegacyIni` writes public key IDs that `fromLegacyIni` reads as other IDs (`s;1` as `S:1`) or takes for comments (`#x`), without any error; the AES key is lost as well. C56_ids_refuted, C56_comment_refuted.
39. `cert_extract.py` silently loses certificates that follow the receipts of their group if a chunk (100000 receipts by default) ends at the end of the receipts; of certificates with equal serial numbers only the last is kept; groups without receipts are skipped. C57_order_refuted, C57_serial_refuted, C57_hollow_refuted.
40. A key store file with a certificate under the empty name ends in an IndexError (`serial[0]`) instead of a KeyStoreException. C58_empty_refuted.
41. A key store file may give a certificate any number as its ID; it is not compared with the serial number of the certificate. Names such as `5A` and `05a` stand for the same ID, the last one silently wins. C58_serial_refuted, C58_names_refuted.
42. receipt.py and verify_receipt.py cannot read a single OCR code in Python 3: they end with an AttributeError at the first one, verify_receipt.py without a report on the receipts after it. C59_ocr_py3_always_fails.
43. receipt.py splits receipts with line feeds in their IDs, which are legal, into two lines, neither of which can be read. C59_line_feeds_refuted.
44. verify_receipt.py counts blank lines as receipts, and numbers lines from 0. Receipts of a failed signature device count as bad, though they may belong to a valid DEP. Exceptions of the network and for lone surrogates are not caught and end the program without report. C60_blank_refuted, C60_device_refuted, C60_network_refuted, C60_surrogates_refuted.
45. A group that lacks an element (certificate, chain or receipts) is reported as MissingDEPElement by verify.py if the document is read as a whole, but may end in an IndexError if it is read in chunks. C50_program_refuted.
46. An AES key of a wrong length entered in the graphical program makes verification hang: InvalidKeyException is neither a receipt nor a DEP exception, so that no callback is called and the button stays at "Verifying...". C64_key_refuted.
47. In Python 3 no receipt of a displayed DEP can be viewed: the compressed receipt is passed to a function for texts, the TypeError ends the program. C64_dep_receipt_refuted.
48. Importing any malformed key store in the graphical program ends it: KeyStoreException is not among the exceptions handled. C63_import, C64_import_refuted. Loading a DEP with receipts that are no texts ends it as well, C64_load_refuted.
49. A legacy key store file written for an ID with further colons, such as a:b, is read back with the ID cut at the first colon, since INI options end there. C56_colon_refuted.
50. With several processes and an empty `base64AESKey`, verify.py waits forever instead of reporting the invalid key: `InvalidKeyException` (utils.py:64-70) cannot be unpickled, since `__reduce__` passes the message to a constructor without arguments, and the pool's thread that receives results ends. C65_refuted; C65_lost shows that nothing else can cause it.
51. demo.py takes the time of receipts from `datetime.now()`, that is local time. In the hour that is repeated at the end of summer time it makes DEPs which verify.py rejects with DecreasingDateException. C66_clock_refuted. (Verification itself compares local times, too: a register that obeys RKSV's demand for local time cannot avoid this.)
52. run_test.py counts `curRegIdx` up by one when a register is added, though `continueRegister` may have set it to an older register. Then `reg2LastDEP` is updated for the wrong register, and a later `Vorheriges-DEP` can name a DEP of another register, so that a valid specification fails with ChainingException. C67_index_refuted. An annotated turnover of 0 is dropped by `if expectedTurnover`, so that it is never compared. C67_zero_refuted.
53. A string containing a high surrogate directly followed by a low one (two characters, possible only in texts that cannot be encoded) is changed by writing it to JSON and reading it back: the two are joined to one character. C68_pairs_refuted.
54. A key file named .json whose text is valid JSON but no object (such as `[]`) ends the graphical program with TypeError in both loadAESCb methods, which handle ValueError and KeyError only. C70_array_refuted. Turnover counters beyond about 7*10^15 cents are displayed as the nearest float, so two different counters look the same (C70_large_refuted), and years before 1000 are displayed without leading zeros (C70_year_refuted).
55. Verified in parallel (verifyParsedDEP with a pool), a rejected DEP may be reported with another exception than the sequential verification gives: each package starts from the state predicted from the receipts before it, so a receipt that is right may be named because the one before it, in another package, is wrong; which of the failing packages is reported depends on the schedule. C71_parallel_refuted.
56. The verdict of test_verify.py on a test that expects an exception at a certain receipt may change from run to run: if a specification contains two faults in different packages, the process that fails first decides which receipt is reported (the test ends with "Result mismatch"). C72_schedule_refuted.
57. The same holds of the chunk size drawn at random where certificates are omitted (as in tests/test_cert_missing.json): groups without certificate are only noticed if two of them come into one chunk (C24), so the test fails if the chunk size equals the size of the groups. C72_random_refuted.
58. A specification with "exceptionReceipt" whose expected exception has no receipt (such as NoCertificateGivenException) ends the whole test run with AttributeError: the comparison is outside of the try statement. C72_receipt_refuted.
59. The register counts the turnover before it asks for the signature. A reply of the A-Trust service that is no JSON text (ValueError in requests before 2.27) or lacks "result" (KeyError) ends the call with an exception; if the receipt is requested again the turnover is counted twice, and the DEP is rejected with InvalidTurnoverCounter. C73_again_refuted.
60. The reply of the service is put into the receipt unseen; if it belongs to another payload the receipt is made and handed out, and only verification shows that it is wrong. C73_reply_refuted.
61. demo.py with the A-Trust service issues no receipt of zero after an outage, as the law demands; its DEP is then rejected with NoRestoreReceipt. C73_demo_refuted.
62. An override of "signature" (or "header") in a test specification does not reach the text that the next receipt is chained to: a receipt with the outage marker as signature is accepted, but the next regular receipt is rejected with ChainingError, unlike after an outage of the device. C74_signature_refuted.
63. Overrides of "turnoverCounter" and "turnoverCounterSize" are not undone after the receipt: all later receipts go on from the overridden counter and size. C74_fields.
64. For a last receipt that violates several rules, the exception depends on the way of verification: an ID that was used in an earlier package is found out when results are merged, after chaining and counters have been checked. C75_same_refuted.
65. run_test.py ends with status 0 if its arguments are wrong or the counter size is out of range, as if files had been written. C80_status_refuted.
66. test_verify.py: an exception that is no RKSV exception (e.g. AttributeError if a receipt is expected along with an exception that has none, like UntrustedCertificateException) escapes from the test and ends the whole run: no lines for the remaining cases, no summary, and the exit status 1 is that of a failed test. C81_report_refuted.
67. The default counter size given to testVerifyMulti appears in the report, but the test is run with counters of 8 octets. C81_default_refuted.
68. A test case whose label is literally "Unknown" is reported as an error without being run, like one without a label (TestMulti.test_row).
69. A malformed CSV line whose receipt has no ID is reported with the text of the QR code that was made from it, not with the line. C82_text_refuted. A line with underscores instead of semicolons is read. C82_semicolon_refuted.
70. verify.py ends with status 0 if its arguments are wrong (e.g. "par two"), as for an accepted DEP. C83_status_refuted.
71. verify.py takes a key store whose name is a number for the number of a register, also without "state", and then shows the usage message with status 0. C83_documented_refuted.
72. A malformed RKSV_DEP_CHUNKSIZE ends verify.py with ValueError even if the chunk size is given on the command line. C83_environment_refuted.
73. `verification_state.py <state> show` shows neither the used receipt IDs nor the chaining value: of two states that are shown alike one accepts a DEP that the other rejects. C84_shown_refuted.
74. `verification_state.py <state> show` writes the state file and thereby drops all keys it does not know. C84_show_refuted.
75. `key_store.py <key store> fromLegacyIni` overwrites the key store with one that cannot be read any more if a certificate in the INI file is not named by a number: the section is not checked on reading, but on the next call KeyStoreError is raised. C85_ini_refuted.
76. split.py numbers its files without leading zeros: with more than ten files `merge.py dir/*.json` merges them in another order and the result is rejected. C86_alphabetical_refuted.
77. split.py leaves files of an earlier call in the directory: merging all files there gives a DEP with receipts that were not in the original. C86_leftover_refuted.
78. merge.py refuses to "merge" the only file that split.py writes for a short DEP, and takes a first file named `nomerge` for the option. C86_merge_usage.
79. verify_receipt.py prints receipt IDs as they are: those of receipts in JWS form may contain line feeds, so a receipt that fails can add lines about other receipts to the report, or the summary. C87_forged_refuted.
80. verify_receipt.py ends with status 0 if receipts fail, and both scripts do so after showing their usage: scripts cannot rely on the status. C87_status_refuted.
81. A text replaced with `jwsOverride` is verified, but the next receipt is chained to the one it replaced (cashreg.py:178): tests that replace the text of any receipt but the last by a readable one cannot expect anything but a chaining error after it. C90_chain_refuted.
