{
 "claims": [
  {
   "property": "C01",
   "status": "proved",
   "theorems": [
    "C01_jws_roundtrip",
    "C01_canonical_segments"
   ],
   "note": "For all strings accepted by fromJWSString. The serialised string is the original one iff header and payload segment are canonical base64url."
  },
  {
   "property": "C02",
   "status": "proved",
   "theorems": [
    "C02_jws_to_qr",
    "C02_jws_qr_jws",
    "C02_qr_roundtrip",
    "C02_surrogates_refuted"
   ],
   "note": "For receipts from the QR parser the text must be encodable as UTF-8: a lone surrogate in an ID is accepted by fromBasicCode but cannot be printed (C02_surrogates_refuted)."
  },
  {
   "property": "C03",
   "status": "partial",
   "theorems": [
    "C03_ocr_py2",
    "C03_ocr_canonical",
    "C03_ocr_py3_always_fails",
    "C03_ocr_py3_refuted",
    "C03_ocr_py2_refuted"
   ],
   "note": "False as stated on Python 3: fromOCRCode raises AttributeError on every OCR code the library prints. On Python 2 the round trip holds for all receipts with a non-empty counter; a counter consisting of a line feed is a counterexample."
  },
  {
   "property": "C04",
   "status": "proved",
   "theorems": [
    "C04_csv_roundtrip",
    "C04_csv_unsafe_refuted"
   ],
   "note": "Proved under the stated proviso; the second theorem shows the proviso is needed."
  },
  {
   "property": "C05",
   "status": "proved",
   "theorems": [
    "C05_parsers_clean",
    "C05_surrogates_refuted"
   ],
   "note": "Proved for all UTF-8 encodable texts; the second theorem shows what happens with lone surrogates."
  },
  {
   "property": "C06",
   "status": "proved",
   "theorems": [
    "C06_jws_grammar",
    "C06_qr_grammar",
    "C06_constructor",
    "C06_unambiguous"
   ],
   "note": "Equivalence with the grammar of SpecReceipt.v, which tolerates what the patterns of the code tolerate (a final line feed, Unicode digits)."
  },
  {
   "property": "C07",
   "status": "proved",
   "theorems": [
    "C07_system_type"
   ],
   "note": "For all constructor arguments."
  },
  {
   "property": "C08",
   "status": "proved",
   "theorems": [
    "C08_utf8",
    "C08_b64",
    "C08_b64_canonical",
    "C08_b64_accepts",
    "C08_padding",
    "C08_b32",
    "C08_b32_py3_refuted",
    "C08_rfc4648",
    "C08_rfc3629"
   ],
   "note": "Base 32 under Python 3 never decodes (C08_b32_py3_refuted)."
  },
  {
   "property": "C09",
   "status": "proved",
   "theorems": [
    "C09_counter_roundtrip",
    "C09_encryption_domain",
    "C09_decrypt_injective",
    "C09_encryption",
    "C09_receipt",
    "C09_determined"
   ],
   "note": ""
  },
  {
   "property": "C10",
   "status": "proved",
   "theorems": [
    "C10_printed",
    "C10_exact",
    "C10_exact_jws",
    "C10_zero",
    "C10_unbounded_refuted"
   ],
   "note": "Uses the axioms of the standard library's real numbers. Without the bound the claim is false."
  },
  {
   "property": "C11",
   "status": "proved",
   "theorems": [
    "C11_chaining",
    "C11_determined"
   ],
   "note": "Assumes SHA-256 yields 32 bytes (hash_ok)."
  },
  {
   "property": "C12",
   "status": "proved",
   "theorems": [
    "C12_signatures"
   ],
   "note": "Signature validity is the oracle w_es256_verify over the re-encoded header and payload; see C44 for malleability of the text."
  },
  {
   "property": "C13",
   "status": "proved",
   "theorems": [
    "C13_unique",
    "C13_sorted"
   ],
   "note": "Set backend and sorted backend. For the sorted backend IDs increase strictly and lie above the recorded maximum."
  },
  {
   "property": "C14",
   "status": "proved",
   "theorems": [
    "C14_consistency",
    "C14_time"
   ],
   "note": "Also relative to the last receipt in the state and to the start receipt of the previous register of a cluster."
  },
  {
   "property": "C15",
   "status": "proved",
   "theorems": [
    "C15_counter",
    "C15_printed"
   ],
   "note": "C15_counter is about the cents the code computes in binary64 arithmetic, C15_printed about the printed amounts."
  },
  {
   "property": "C16",
   "status": "proved",
   "theorems": [
    "C16_start",
    "C16_printed"
   ],
   "note": ""
  },
  {
   "property": "C17",
   "status": "proved",
   "theorems": [
    "C17_restore"
   ],
   "note": "Including the flag handed over between parts."
  },
  {
   "property": "C18",
   "status": "proved",
   "theorems": [
    "C18_exact",
    "C18_groups"
   ],
   "note": "Equivalence with valid_sequence of SpecDep.v, dep_ok and selects of SpecCluster.v, including the final state."
  },
  {
   "property": "C19",
   "status": "proved",
   "theorems": [
    "C19_same_length",
    "C19_complete"
   ],
   "note": "Same length: as stated. Complete DEPs: of any length."
  },
  {
   "property": "C20",
   "status": "proved",
   "theorems": [
    "C20_parts",
    "C20_error",
    "C20_groups",
    "C20_group"
   ],
   "note": "Cut before any receipt, also within a group. Without certificates there must be one group only. Both parts must contain receipts, as empty DEPs are rejected."
  },
  {
   "property": "C21",
   "status": "proved",
   "theorems": [
    "C21_update",
    "C21_package",
    "C21_middle_refuted"
   ],
   "note": "For registers that record both or none of start and last receipt. For the states fromArbitraryReceipt makes (last receipt only) the claim is refuted: verification leaves the start receipt unset, the update sets it."
  },
  {
   "property": "C22",
   "status": "proved",
   "theorems": [
    "C22_accepts",
    "C22_exact",
    "C22_usual",
    "C22_file",
    "C22_middle_refuted"
   ],
   "note": "For every state of the usual form (all states that verification reaches from a new cluster, C22_usual), every schedule in which each package is its own task (pool with at most four packages per worker, or no pool and one process), every chunk size and number of parts. Acceptance by verifyDEP implies acceptance by verifyParsedDEP with the same state unconditionally, the converse needs certificates in all groups or a single group (see C24). States from fromArbitraryReceipt are not of the usual form and the resulting states differ there (C22_middle_refuted)."
  },
  {
   "property": "C23",
   "status": "partial",
   "theorems": [
    "C23_rejected",
    "C23_refuted",
    "C23_one"
   ],
   "note": "False: all packages of a batch share one object for the used IDs, so that without a pool and with nprocs > 1 every DEP of at least two chunks is rejected (C23_rejected, C23_refuted). True for DEPs of one chunk (C23_one)."
  },
  {
   "property": "C24",
   "status": "partial",
   "theorems": [
    "C24_size",
    "C24_refuted"
   ],
   "note": "False for DEPs with several groups without certificates (C24_refuted): they are accepted if chunk boundaries separate the groups. True if all groups with receipts have certificates or there is only one (C24_size)."
  },
  {
   "property": "C25",
   "status": "proved",
   "theorems": [
    "C25_file",
    "C25_unlimited",
    "C25_stream",
    "C25_stream_refuted",
    "C25_names_refuted"
   ],
   "note": "For files whose element names contain no dots. The file parser attaches a wrong certificate if an unknown element has a dotted name, and the stream parser refuses certificateless DEPs: both refuted by witnesses."
  },
  {
   "property": "C26",
   "status": "proved",
   "theorems": [
    "C26_agree",
    "C26_implied"
   ],
   "note": "For files whose element names contain no dots."
  },
  {
   "property": "C27",
   "status": "proved",
   "theorems": [
    "C27_parts",
    "C27_text_refuted"
   ],
   "note": "For DEPs in which all elements Belege-kompakt are arrays and more than one part; otherwise receipts are not counted (C27_text_refuted)."
  },
  {
   "property": "C28",
   "status": "partial",
   "theorems": [
    "C28_exact",
    "C28_stream",
    "C28_required",
    "C28_exceptions",
    "C28_dict",
    "C28_regular",
    "C28_refuted"
   ],
   "note": "Acceptance is characterised exactly. The claim about exceptions is false: IndexError, TypeError, AttributeError and UnicodeEncodeError occur (refuted); the theorems say exactly which and when."
  },
  {
   "property": "C29",
   "status": "proved",
   "theorems": [
    "C29_balance",
    "C29_batches",
    "C29_package"
   ],
   "note": "balanceGroupsWithVerifiers without any receipts raises ValueError, as C29_balance says."
  },
  {
   "property": "C30",
   "status": "proved",
   "theorems": [
    "C30_merge",
    "C30_order",
    "C30_sorted",
    "C30_pieces",
    "C30_natural",
    "C30_check",
    "C30_foreign",
    "C30_check_refuted"
   ],
   "note": "Both backends. The natural order is pinned down for IDs without digits of other scripts; with such digits the check raises ValueError or TypeError (C30_foreign, C30_check_refuted)."
  },
  {
   "property": "C31",
   "status": "proved",
   "theorems": [
    "C31_cluster",
    "C31_no_gap"
   ],
   "note": ""
  },
  {
   "property": "C32",
   "status": "proved",
   "theorems": [
    "C32_failed",
    "C32_failed_parallel",
    "C32_succeeded",
    "C32_succeeded_parallel",
    "C32_retry_refuted"
   ],
   "note": "A failed verification for a new register leaves an empty register behind, so that repeating it with the right DEP fails (C32_retry_refuted)."
  },
  {
   "property": "C33",
   "status": "proved",
   "theorems": [
    "C33_middle",
    "C33_start",
    "C33_cancellation_refuted"
   ],
   "note": "With the same backend for used IDs or the set backend. For receipts that are not standard the claim, which does not extend to them, is false (C33_cancellation_refuted)."
  },
  {
   "property": "C34",
   "status": "proved",
   "theorems": [
    "C34_roundtrip",
    "C34_read",
    "C34_wf",
    "C34_order"
   ],
   "note": "Values of JSON documents, not their text. The list that stands for a Python set has no repetitions."
  },
  {
   "property": "C35",
   "status": "proved",
   "theorems": [
    "C35_chain"
   ],
   "note": ""
  },
  {
   "property": "C36",
   "status": "partial",
   "theorems": [
    "C36_hexadecimal",
    "C36_decimal",
    "C36_decimal_refuted",
    "C36_certificate",
    "C36_mismatch"
   ],
   "note": "Decimal notation: false if the field read in hexadecimal notation is the ID of another key in the store (C36_decimal_refuted), true otherwise (C36_decimal). The other parts of the claim hold without condition."
  },
  {
   "property": "C37",
   "status": "proved",
   "theorems": [
    "C37_map",
    "C37_map_total",
    "C37_json",
    "C37_json_key",
    "C37_json_refuted"
   ],
   "note": "Assumes pem_ok about the PEM codec of the cryptography library. With putKey a certificate can be stored under an ID other than its serial number; then JSON does not preserve the entry (C37_json_refuted)."
  },
  {
   "property": "C38",
   "status": "proved",
   "theorems": [
    "C38_lines",
    "C38_strip",
    "C38_export"
   ],
   "note": ""
  },
  {
   "property": "C39",
   "status": "proved",
   "theorems": [
    "C39_accepted",
    "C39_subcent_refuted",
    "C39_failed_call_refuted"
   ],
   "note": "For all sequences of requests that follow the rules (amounts of whole cents up to 10^14, encodable identifiers, devices the verifier knows), with any number of groups, working and broken devices, training and cancellation receipts. Two findings outside these rules: amounts with fractions of a cent are printed and counted differently (C39_subcent_refuted), and a call that raises changes the counter nevertheless (C39_failed_call_refuted)."
  },
  {
   "property": "C40",
   "status": "proved",
   "theorems": [
    "C40_shape",
    "C40_exists",
    "C40_accepted",
    "C40_only",
    "C40_url",
    "C40_segment",
    "C40_fragment",
    "C40_hosted",
    "C40_verified"
   ],
   "note": ""
  },
  {
   "property": "C41",
   "status": "proved",
   "theorems": [
    "C41_shrink_expand",
    "C41_expand_shrink"
   ],
   "note": "All texts and all byte strings."
  },
  {
   "property": "C42",
   "status": "partial",
   "theorems": [
    "C42_merge",
    "C42_chain_refuted",
    "C42_collected",
    "C42_any_use",
    "C42_order_refuted"
   ],
   "note": "Sequence of receipts and certificates are preserved and adjacent groups differ, for all streams. The chain is preserved unless adjacent groups have the same certificate and different chains: MergingDEPStream compares a chain with itself, so the second chain is lost (C42_chain_refuted). With all groups taken first everything holds (C42_collected); with interleaved reading no receipt is lost (C42_any_use), but the order may change (C42_order_refuted)."
  },
  {
   "property": "C43",
   "status": "proved",
   "theorems": [
    "C43_export",
    "C43_default_refuted",
    "C43_split",
    "C43_split_contents",
    "C43_split_total",
    "C43_split_refuted",
    "C43_merge",
    "C43_merge_total",
    "C43_merge_refuted"
   ],
   "note": "Names of unknown elements must be free of dots (see C25). Splitting without certificates needs a single group, as verification does. Without canonical encoding the claim is false (C43_split_refuted). merge.py: accepted DEPs stay accepted; the converse needs equal chains (C43_merge_refuted). DEPExporter with its default argument writes nothing useful (C43_default_refuted)."
  },
  {
   "property": "C44",
   "status": "partial",
   "theorems": [
    "C44_signed",
    "C44_exact",
    "C44_unique",
    "C44_refuted",
    "C44_encodings"
   ],
   "note": "False in general: base64 admits several texts for the same octets, all of which are accepted (C44_refuted, C44_encodings). True among canonically encoded texts."
  },
  {
   "property": "C45",
   "status": "proved",
   "theorems": [
    "C45_qr",
    "C45_csv",
    "C45_ocr",
    "C45_encodings",
    "C45_marker_refuted"
   ],
   "note": "CSV: if no field contains a semicolon or blanks at its ends. OCR: in Python 2. A marker of a failed signature device in non-canonical encoding gives different verdicts (C45_marker_refuted)."
  },
  {
   "property": "C46",
   "status": "proved",
   "theorems": [
    "C46_verifies",
    "C46_options",
    "C46_written",
    "C46_continue"
   ],
   "note": "For legal arguments, files whose element names contain no dots and occur once, and usual states, which include all that verify.py writes (C46_written). Arguments are modelled after parsing. \"state continue\" with a new state is always an error (C46_continue)."
  },
  {
   "property": "C47",
   "status": "proved",
   "theorems": [
    "C47_parts",
    "C47_split"
   ],
   "note": "Two parts cut anywhere, and all files of split.py, each call with its own options."
  },
  {
   "property": "C48",
   "status": "proved",
   "theorems": [
    "C48_vectors",
    "C48_reuse",
    "C48_registers_refuted"
   ],
   "note": "Within one register. Between registers that share a key vectors may coincide, since register ID and receipt ID are joined without separator (C48_registers_refuted)."
  },
  {
   "property": "C49",
   "status": "proved",
   "theorems": [
    "C49_without_key",
    "C49_key_later_refuted"
   ],
   "note": "Adding the key later makes the rest of a valid DEP fail, since the state then has an old counter (C49_key_later_refuted)."
  },
  {
   "property": "C50",
   "status": "proved",
   "theorems": [
    "C50_clean",
    "C50_set",
    "C50_short",
    "C50_parallel",
    "C50_incremental",
    "C50_program",
    "C50_amounts_refuted",
    "C50_program_refuted"
   ],
   "note": "C50_parallel, C50_incremental and C50_program extend it to parallel verification, the incremental parser and verify.py, where documents lacking certificates read in chunks end in an IndexError (C50_program_refuted). C50_clean lists the remaining cases: amounts whose sum is infinite or not a number, with key (legal receipts with amounts of 310 digits end in OverflowError or ValueError, C50_amounts_refuted), and IDs with foreign digits in natural order (C30_foreign). Receipts that are no texts or contain lone surrogates are the subject of C28."
  },
  {
   "property": "C51",
   "status": "proved",
   "theorems": [
    "C51_table",
    "C51_back",
    "C51_verdict",
    "C51_line_feeds_refuted",
    "C51_certificates_refuted"
   ],
   "note": "For receipts in canonical encoding without semicolons, line breaks and blanks at the ends of fields (tabular). IDs with line feeds are legal and written, but not read back (C51_line_feeds_refuted); certificates are not kept, so C51_verdict is for DEPs without certificates (C51_certificates_refuted)."
  },
  {
   "property": "C52",
   "status": "proved",
   "theorems": [
    "C52_commands",
    "C52_ids",
    "C52_reset_refuted"
   ],
   "note": "The effect of resetCashRegister is larger than its name: it clears the used IDs of all registers (stated in the specification `changes`; consequence in C52_reset_refuted). C52_ids: IDs without line breaks and blanks at the ends."
  },
  {
   "property": "C53",
   "status": "proved",
   "theorems": [
    "C53_update",
    "C53_document",
    "C53_continues",
    "C53_ids_refuted"
   ],
   "note": "For usual registers (C21) and documents with plain names; C53_continues for the set backend. Used IDs are not recorded, so a later DEP that uses them again is accepted after the update and not after verification (C53_ids_refuted)."
  },
  {
   "property": "C54",
   "status": "proved",
   "theorems": [
    "C54_formats",
    "C54_middle",
    "C54_start"
   ],
   "note": "For tabular receipts (C51). The format url always fails in the code, as getBasicCodeFromURL is not imported. OCR is not included as its two base32 fields are normalised differently (C03)."
  },
  {
   "property": "C55",
   "status": "proved",
   "theorems": [
    "C55_commands",
    "C55_output",
    "C55_create",
    "C55_sign_refuted"
   ],
   "note": "For stores with signless certificate IDs. A certificate under an ID such as \"--5\" changes its ID with every rewriting of the file (C55_sign_refuted)."
  },
  {
   "property": "C56",
   "status": "proved",
   "theorems": [
    "C56_legacy",
    "C56_ids_refuted",
    "C56_comment_refuted",
    "C56_colon_refuted"
   ],
   "note": "For public key IDs satisfying ini_id; the AES key is always lost. The ID s;1 comes back as S:1 (C56_ids_refuted) and #x is silently dropped (C56_comment_refuted); IDs with colons such as a:b come back cut at the first colon (C56_colon_refuted)."
  },
  {
   "property": "C57",
   "status": "proved",
   "theorems": [
    "C57_complete",
    "C57_sound",
    "C57_order_refuted",
    "C57_serial_refuted",
    "C57_hollow_refuted"
   ],
   "note": "C57_complete if certificates precede receipts, or the chunk size is 0 or larger than the number of receipts. Otherwise certificates may be lost silently (C57_order_refuted); equal serial numbers overwrite each other (C57_serial_refuted); groups without receipts are skipped (C57_hollow_refuted)."
  },
  {
   "property": "C58",
   "status": "partial",
   "theorems": [
    "C58_file",
    "C58_determined",
    "C58_rejected",
    "C58_empty_refuted",
    "C58_serial_refuted",
    "C58_names_refuted"
   ],
   "note": "Reading is characterised exactly. Missing: a certificate with an empty name ends in an IndexError instead of the library exception (C58_empty_refuted; C58_rejected shows that this is the only such case). Certificates are kept under their entry name whatever their serial number is (C58_serial_refuted), and several names may stand for one ID (C58_names_refuted)."
  },
  {
   "property": "C59",
   "status": "proved",
   "theorems": [
    "C59_converted",
    "C59_back",
    "C59_lines",
    "C59_line_feeds_refuted",
    "C59_ocr_py3_always_fails"
   ],
   "note": "For canonically encoded receipts without line breaks in fields (C59_line_feeds_refuted); reading CSV also needs fields without semicolons and blanks at the ends (C04). OCR can be read in Python 2 only (C59_ocr_py3_always_fails). The format url prints the hash, which no format reads."
  },
  {
   "property": "C60",
   "status": "proved",
   "theorems": [
    "C60_report",
    "C60_lines",
    "C60_formats",
    "C60_blank_refuted",
    "C60_device_refuted",
    "C60_surrogates_refuted",
    "C60_network_refuted"
   ],
   "note": "For texts without lone surrogates (C60_surrogates_refuted). Blank lines count as receipts (C60_blank_refuted), receipts of a failed device as bad ones (C60_device_refuted). Network errors end the program without a report (C60_network_refuted)."
  },
  {
   "property": "C61",
   "status": "proved",
   "theorems": [
    "C61_displayed",
    "C61_exact",
    "C61_no_key"
   ],
   "note": "For one process at least. Verification is on a fresh state with the set backend, as in the program."
  },
  {
   "property": "C62",
   "status": "proved",
   "theorems": [
    "C62_exact"
   ],
   "note": "CSV is not among the formats of the program. The network is an oracle."
  },
  {
   "property": "C63",
   "status": "proved",
   "theorems": [
    "C63_found",
    "C63_exported",
    "C63_import"
   ],
   "note": "Export and import for signless certificate IDs (C55_sign_refuted). The exported file contains no AES key."
  },
  {
   "property": "C64",
   "status": "partial",
   "theorems": [
    "C64_load",
    "C64_dep",
    "C64_receipt",
    "C64_store",
    "C64_load_refuted",
    "C64_key_refuted",
    "C64_receipt_refuted",
    "C64_dep_receipt_refuted",
    "C64_import_refuted"
   ],
   "note": "Proved for DEPs whose receipts are texts, for no key or keys of 32 octets with short amounts (C50), for receipts in JWS and QR format without lone surrogates, and for all changes of the key store but import. Missing because false: keys of another length leave verification hanging (C64_key_refuted), receipts of a DEP cannot be viewed in Python 3 (C64_dep_receipt_refuted), every malformed key store ends the program (C64_import_refuted), receipts that are no texts (C64_load_refuted) and lone surrogates (C64_receipt_refuted) are not handled."
  },
  {
   "property": "C65",
   "status": "partial",
   "theorems": [
    "C65_ends",
    "C65_library",
    "C65_same",
    "C65_lost",
    "C65_refuted"
   ],
   "note": "Proved for stores without AES key or with one of 32 octets, and in general that results which arrive are right and that only an invalid key can prevent arrival. Missing because false: an empty AES key, for which the program does not end (C65_refuted)."
  },
  {
   "property": "C66",
   "status": "proved",
   "theorems": [
    "C66_accepted",
    "C66_clock_refuted"
   ],
   "note": "For clocks that do not go backwards; the program uses local time, which does so at the end of summer time (C66_clock_refuted). The mode with a signature device reached by network is not modelled."
  },
  {
   "property": "C67",
   "status": "proved",
   "theorems": [
    "C67_accepted",
    "C67_index_refuted",
    "C67_zero_refuted"
   ],
   "note": "For specifications that add registers only while the one added last is in use; otherwise the index of the current register becomes wrong (C67_index_refuted). A stated turnover of zero is not compared (C67_zero_refuted). Overrides and the making of certificates are not modelled."
  },
  {
   "property": "C68",
   "status": "proved",
   "theorems": [
    "C68_grammar",
    "C68_stream",
    "C68_roundtrip",
    "C68_ascii",
    "C68_pairs_refuted",
    "C68_state",
    "C68_store",
    "C68_dep",
    "C68_full"
   ],
   "note": "Strings with a high surrogate directly followed by a low one are changed (C68_pairs_refuted). The printing of fractions is a parameter, assumed to print a number that is read as the same; no document of the project contains fractions. Limits of nesting and of the length of integers are not modelled."
  },
  {
   "property": "C69",
   "status": "proved",
   "theorems": [
    "C69_dep",
    "C69_accepted",
    "C69_started",
    "C69_lines",
    "C69_lines_started",
    "C69_client"
   ],
   "note": "For documents with plain names (C25). C69_client needs hash_ok, that no other code of the DEP has the same shortened hash, and that the signature is encoded canonically or is not the marker of a failed device (C45)."
  },
  {
   "property": "C70",
   "status": "proved",
   "theorems": [
    "C70_opened",
    "C70_viewed",
    "C70_typed",
    "C70_verified",
    "C70_first",
    "C70_loaded",
    "C70_actions",
    "C70_large_refuted",
    "C70_array_refuted",
    "C70_year_refuted"
   ],
   "note": "For amounts and counters up to 10^14 cents (beyond, C70_large_refuted), years from 1000 (before, C70_year_refuted), and key files ending in .json that are objects or no JSON at all (C70_array_refuted). The text of a floating point number is a parameter, assumed to be a decimal notation of a number it is the nearest to (prints; exact_prints shows that there is one). Receipts are those of JWS and QR texts; with OCR the theorems hold if the receipt is one that a JWS text can have."
  },
  {
   "property": "C71",
   "status": "proved",
   "theorems": [
    "C71_diagnosis",
    "C71_right",
    "C71_located",
    "C71_fault",
    "C71_cert",
    "C71_parallel_refuted"
   ],
   "note": "For DEPs that are read completely (dep_is, no lone surrogates in receipts), a register whose recorded receipts can be read, and hash_ok. SpecDiag.v gives for each exception the rule it stands for; C71_diagnosis shows that the exception raised is about the first place that is not in order, C71_located that the first receipt that breaks the sequence is the one reported whatever follows, C71_right, C71_fault and C71_cert that what it says is a violation of the rules of SpecDep and SpecCluster. For verification in parallel the claim is false: C71_parallel_refuted shows that which receipt is named depends on the schedule, and that it need not be the first wrong one."
  },
  {
   "property": "C72",
   "status": "proved",
   "theorems": [
    "C72_positive",
    "C72_accepted",
    "C72_verdict",
    "C72_alike",
    "C72_fault",
    "C72_receipts",
    "C72_schedule_refuted",
    "C72_random_refuted",
    "C72_receipt_refuted"
   ],
   "note": "Schedules are isolated (C21). The verdict on a test that expects an exception at a certain receipt depends on the schedule (C72_schedule_refuted) and, where certificates are omitted, on the chunk size drawn (C72_random_refuted); a stated receipt with an exception that has none ends the program (C72_receipt_refuted). The diagnosis in C72_fault is for DEPs that are read completely, as in C71. The messages of exceptions and regular expressions are parameters. jwsOverride, the making of certificates, the label filter and the exit status are not modelled."
  },
  {
   "property": "C73",
   "status": "partial",
   "theorems": [
    "C73_sign",
    "C73_accepted",
    "C73_fields",
    "C73_demo",
    "C73_reply_refuted",
    "C73_again_refuted",
    "C73_demo_refuted"
   ],
   "note": "The parts about receipts, orderly requests, fields and demo.py are proved; the last sentence is false: the turnover counter is changed before the signature is asked for, so a request that failed and is made again is counted twice (C73_again_refuted). The reply is not checked (C73_reply_refuted). demo.py is accepted if the service stays lost once it is lost, and may be rejected otherwise (C73_demo_refuted). The service is a function from payloads to replies, one for each receipt; user name, password and TLS are not modelled."
  },
  {
   "property": "C74",
   "status": "partial",
   "theorems": [
    "C74_none",
    "C74_fields",
    "C74_caught",
    "C74_signature_refuted"
   ],
   "note": "All but the last sentence is proved; overrides are those of SpecOverride.injected, one receipt is overridden after orderly requests (C39), the cluster is new, the groups are trusted and the receipts can be encoded. The duplicate ID is for the set backend. The last sentence is false: C74_signature_refuted. jwsOverride is not modelled."
  },
  {
   "property": "C75",
   "status": "proved",
   "theorems": [
    "C75_both",
    "C75_file",
    "C75_injected",
    "C75_same_refuted"
   ],
   "note": "Schedules are isolated and clusters usual (as in C22), the groups trusted, texts without lone surrogates, and the recorded receipts readable. The exceptions may differ if the receipt violates several rules (C75_same_refuted): IDs used in other packages are only compared when the results are merged, and counters are already computed when the states are predicted. Faults before the last receipt may be reported at another receipt (C71_parallel_refuted)."
  },
  {
   "property": "C76",
   "status": "proved",
   "theorems": [
    "C76_outcomes",
    "C76_verdict"
   ],
   "note": "For overrides of SpecOverride.injected in the last of the instructions, which are for one register and one DEP; schedules are isolated. Overrides that make receipts unreadable are in C77."
  },
  {
   "property": "C77",
   "status": "proved",
   "theorems": [
    "C77_jws",
    "C77_qr",
    "C77_printed",
    "C77_garbled",
    "C77_outcomes",
    "C77_verdict"
   ],
   "note": "Texts are without lone surrogates (others cannot be written to a file). The overrides are those of SpecGarbled.garbled, in the last of the instructions of a specification for one register and one DEP; schedules are isolated. jwsOverride is not modelled."
  },
  {
   "property": "C78",
   "status": "proved",
   "theorems": [
    "C78_devices",
    "C78_rules",
    "C78_passes",
    "C78_unreadable"
   ],
   "note": "The assumptions about the cryptographic library and random numbers are SpecSetup.maker_ok. Serial numbers of different certificates differ, in decimal notation also from hexadecimal ones of others if there is one group (random 160 bit numbers in the code). Without groups devices have no certificate chain, as only one certificate per device is in the key store. Optional elements of the specification have the right type and enough entries."
  },
  {
   "property": "C79",
   "status": "proved",
   "theorems": [
    "C79_dep",
    "C79_file",
    "C79_unique",
    "C79_first",
    "C79_flawed"
   ],
   "note": "For usual clusters, texts that can be encoded and isolated schedules. For specifications as a whole: one signature device, several groups (otherwise certificates are not looked at), key pairs of different purposes apart, and, for the collision, fingerprints of certificates with different keys apart (SpecFlaw.flawed_setup). Certificates that are missing altogether depend on the chunks, see C72."
  },
  {
   "property": "C80",
   "status": "proved",
   "theorems": [
    "C80_files",
    "C80_names",
    "C80_accepted",
    "C80_status_refuted"
   ],
   "note": "For specifications in order as in C78, with the counter size of the command line. Files are given by their contents; making and changing the directory is not modelled. C80_status_refuted records a finding beside the property: run_test.py ends with status 0 also if it writes nothing because its arguments are wrong."
  },
  {
   "property": "C81",
   "status": "partial",
   "theorems": [
    "C81_turn",
    "C81_multi",
    "C81_single",
    "C81_library",
    "C81_line",
    "C81_passes",
    "C81_report_refuted",
    "C81_default_refuted"
   ],
   "note": "Every line and the summary are exact unless an exception escapes from a test (C81_multi gives both cases). That such an exception ends the run without lines for the rest, without a summary and with the status of a failure refutes the property as stated (C81_report_refuted, an AttributeError, because a receipt is expected along with an exception that has none). Labels of more than 40 characters or ending with a space, groups of more than 8 characters or starting with one are excluded from C81_line (SpecTestMulti.fits_columns). The default size given to testVerifyMulti is reported but not used (C81_default_refuted)."
  },
  {
   "property": "C82",
   "status": "proved",
   "theorems": [
    "C82_base32",
    "C82_ocr",
    "C82_ocr_faults",
    "C82_python3",
    "C82_csv",
    "C82_csv_faults",
    "C82_text_refuted",
    "C82_semicolon_refuted"
   ],
   "note": "base64.b32decode is modelled in Codec.v. The two refuted statements are findings beside the property: a malformed CSV line is reported with the text of the QR code made from it, and a line with underscores instead of semicolons is read."
  },
  {
   "property": "C83",
   "status": "proved",
   "theorems": [
    "C83_command",
    "C83_documented",
    "C83_new",
    "C83_usage",
    "C83_raises",
    "C83_success",
    "C83_status",
    "C83_status_refuted",
    "C83_documented_refuted",
    "C83_environment_refuted"
   ],
   "note": "Files and standard input are given by the JSON documents in them (or the exception on reading them); for C83_success the DEP is a regular file and the state usual, as in C46. Findings beside the property: wrong arguments end with status zero, a key store named by a number is taken for the number of a register, and a malformed RKSV_DEP_CHUNKSIZE ends the program even if chunksize is given."
  },
  {
   "property": "C84",
   "status": "proved",
   "theorems": [
    "C84_command",
    "C84_usage",
    "C84_session",
    "C84_others",
    "C84_show",
    "C84_shown",
    "C84_shown_refuted",
    "C84_show_refuted",
    "C84_told"
   ],
   "note": "Files are given by the JSON documents or texts read from them; writing does not fail; the chunk size from the environment is not negative. C84_shown is for receipts without line breaks. Findings beside the property: the used receipt IDs and the chaining value are not shown (C84_shown_refuted), show rewrites the file and drops unknown keys (C84_show_refuted); wrong arguments end with status 0."
  },
  {
   "property": "C85",
   "status": "partial",
   "theorems": [
    "C85_command",
    "C85_usage",
    "C85_prints",
    "C85_session",
    "C85_others",
    "C85_ini_refuted"
   ],
   "note": "Everything is proved but that fromLegacyIni keeps the file readable: C85_session is for the other commands. With fromLegacyIni it is false (C85_ini_refuted): a certificate that is not named by a number in the INI file is written to a key store that cannot be read any more. Files are given by the JSON documents or texts in them; writing does not fail; exceptions are not told apart."
  },
  {
   "property": "C86",
   "status": "proved",
   "theorems": [
    "C86_split",
    "C86_split_usage",
    "C86_merge",
    "C86_merge_usage",
    "C86_convert",
    "C86_convert_usage",
    "C86_roundtrip",
    "C86_verdict",
    "C86_alphabetical_refuted",
    "C86_leftover_refuted"
   ],
   "note": "DEPs are in the usual encoding (canonical_texts, as in C43) and every receipt has a certificate, or there is one group without and nomerge is not used. Files are given by the JSON documents in them; the directory can be made; what is written before an exception is left out; the chunk size from the environment is not negative. Findings beside the property: with more than ten parts the alphabetical order of a shell is not that of the numbers (C86_alphabetical_refuted), and parts of an earlier call stay (C86_leftover_refuted)."
  },
  {
   "property": "C87",
   "status": "partial",
   "theorems": [
    "C87_receipt",
    "C87_receipt_usage",
    "C87_verify_usage",
    "C87_report",
    "C87_read",
    "C87_lines",
    "C87_forged_refuted",
    "C87_status_refuted",
    "C87_words",
    "C87_apart",
    "C87_store"
   ],
   "note": "Everything is proved but that the report can be read in one way only: C87_read needs that names of receipts and reasons have no line feeds, which C87_lines proves for QR codes and CSV lines from the standard input. It is false for receipts in JWS form (C87_forged_refuted): their IDs may contain line feeds and so lines of the report. C87_report is for JWS, QR codes and CSV, as C60_report. The reason shown for a malformed receipt is arbitrary (a parameter). Finding beside the property: the status is 0 even if no receipt is good (C87_status_refuted)."
  },
  {
   "property": "C88",
   "status": "proved",
   "theorems": [
    "C88_accepted",
    "C88_usage",
    "C88_number",
    "C88_printed",
    "C88_service"
   ],
   "note": "C88_service is for a signature service in the network that, once lost, stays so (else see C73_demo_refuted). The clock does not go back (else see C66_clock_refuted), there are at most 10^13 receipts, the key store is none of the other files. Files are given by the JSON documents or texts in them. Cryptography behaves as in C39 (hash_ok, aes_ok, pem_ok, key_pair)."
  },
  {
   "property": "C89",
   "status": "proved",
   "theorems": [
    "C89_trusted",
    "C89_accepted",
    "C89_any",
    "C89_usage"
   ],
   "note": "No two certificates of the DEP have the same serial number but for the sign (else see C57_serial_refuted); certificates come before the receipts of a group, or no chunk ends in between (else see C57_order_refuted). Entering the directory is an oracle, writing files does not fail, the chunk size is given. PEM texts as in C57 (pem_ok)."
  },
  {
   "property": "C90",
   "status": "partial",
   "theorems": [
    "C90_apart",
    "C90_text",
    "C90_own",
    "C90_caught",
    "C90_last",
    "C90_chain_refuted"
   ],
   "note": "False as stated of the receipt after the replaced one: it is chained to the text that was replaced, C90_chain_refuted. The rest is proved, for the receipts of one register in one group with a certificate (C90_text also without). All texts of the DEP can be encoded as UTF-8. Cryptography and PEM texts as in C39 (hash_ok, aes_ok, pem_ok)."
  }
 ]
}