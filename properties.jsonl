{"id": "C01", "title": "JWS round trip", "statement": "Serialising any receipt that was itself accepted from a JWS string and parsing it again yields the same receipt and the same algorithm prefix; and the serialised string is the original string whenever the payload segment was canonically encoded.", "quantifier": "all strings accepted by Receipt.fromJWSString", "why_tests_cant": "The set of receipt strings is infinite and includes arbitrary Unicode IDs and every base64 tail; tests only use strings produced by the serialiser itself.", "anchors": ["librksv/receipt.py: Receipt.fromJWSString", "librksv/receipt.py: Receipt.toJWSString", "librksv/receipt.py: Receipt.toPayloadString"]}
{"id": "C02", "title": "QR (basic code) round trip", "statement": "Converting an accepted receipt to the machine readable (QR) representation and parsing that again gives the same receipt, with the signature in canonical base64url form; in particular a receipt whose signature was already canonical survives JWS -> QR -> JWS byte for byte.", "quantifier": "all receipts accepted by Receipt.fromJWSString or Receipt.fromBasicCode", "why_tests_cant": "Depends on base64 re-encoding of arbitrary signatures and on field separators inside arbitrary IDs.", "anchors": ["librksv/receipt.py: Receipt.fromBasicCode", "librksv/receipt.py: Receipt.toBasicCode"]}
{"id": "C03", "title": "OCR round trip", "statement": "Converting an accepted receipt to the OCR representation and parsing that again gives back the same receipt as long as its binary fields are canonically encoded, and fromOCRCode never fails on a code produced by toOCRCode.", "quantifier": "all accepted receipts, both supported interpreter generations (Python 2 and 3)", "why_tests_cant": "Needs base32/base64 conversion laws for every byte string, and a statement about every possible input string on Python 3.", "anchors": ["librksv/receipt.py: Receipt.fromOCRCode", "librksv/receipt.py: Receipt.toOCRCode", "librksv/utils.py: b32decode"]}
{"id": "C04", "title": "CSV round trip", "statement": "Converting an accepted receipt to the CSV representation and parsing that again gives the same receipt provided no field contains the CSV separator or has leading or trailing white space.", "quantifier": "all accepted receipts", "why_tests_cant": "IDs are arbitrary text; whether separators and stripping can corrupt them is a statement about all texts.", "anchors": ["librksv/receipt.py: Receipt.fromCSV", "librksv/receipt.py: Receipt.toCSV"]}
{"id": "C05", "title": "Parsers reject cleanly", "statement": "For every text that can be encoded as UTF-8, the JWS, QR and CSV parsers either return a receipt or raise one of the library's receipt exceptions; they never crash with another exception.", "quantifier": "all texts", "why_tests_cant": "A crash on one odd input (of infinitely many) is exactly what example based tests miss.", "anchors": ["librksv/receipt.py: Receipt.fromJWSString", "librksv/receipt.py: Receipt.fromBasicCode", "librksv/receipt.py: Receipt.fromCSV"]}
{"id": "C06", "title": "Accepted receipts are well formed", "statement": "A receipt string is accepted exactly if it consists of the expected number of segments, the announced algorithm with its header, a valid provider ID, non-empty IDs without separator, an existing calendar date and time, five amounts with two decimals, a decodable turnover counter of legal length, a valid certificate serial or key ID matching the system type, and an 8 byte chaining value.", "quantifier": "all texts", "why_tests_cant": "It is an equivalence over all strings between the parser and an independently stated grammar.", "anchors": ["librksv/receipt.py: Receipt.__init__", "librksv/receipt.py: Receipt.fromJWSString", "librksv/receipt.py: getCertSerialType", "librksv/utils.py: getReceiptFloat"]}
{"id": "C07", "title": "System type and certificate field agree", "statement": "In every receipt that can be constructed, the provider is AT0 (closed system) if and only if the certificate field is a key ID (UID, GLN or tax number) rather than a certificate serial.", "quantifier": "all constructor arguments", "why_tests_cant": "Universally quantified over all field values.", "anchors": ["librksv/receipt.py: Receipt.__init__", "librksv/receipt.py: getCertSerialType"]}
{"id": "C08", "title": "Base64, base32 and UTF-8 codec laws", "statement": "The decoding helpers invert the encoders on every byte string or text, re-encoding inverts decoding exactly on canonical inputs, and restoring base64 padding never changes the decoded value of a correctly padded or unpadded encoding.", "quantifier": "all byte strings and texts", "why_tests_cant": "Infinite input space; correctness hinges on the length modulo 3/4/5/8 and leftover bits.", "anchors": ["librksv/utils.py: b64decode", "librksv/utils.py: urlsafe_b64decode", "librksv/utils.py: b32decode", "librksv/utils.py: restoreb64padding"]}
{"id": "C09", "title": "Turnover counter encryption round trip", "statement": "Decrypting an encrypted turnover counter with the same key, register ID and receipt ID gives back the counter for every size and every value that fits into the size as a signed integer; values that do not fit are rejected at encryption time.", "quantifier": "all keys, IDs, counter sizes and integer counter values", "why_tests_cant": "The counter ranges over all integers and sizes, including the negative and boundary values.", "anchors": ["librksv/algorithms.py: R1.encryptTurnoverCounter", "librksv/algorithms.py: R1.decryptTurnoverCounter", "librksv/utils.py: aes256ctr"]}
{"id": "C10", "title": "Amounts are computed without rounding errors", "statement": "For every receipt whose amounts are each at most one trillion euros in absolute value, the number of cents the verifier adds to the turnover counter is exactly the sum of the printed amounts, in spite of binary floating point arithmetic.", "quantifier": "all five-tuples of two-decimal amounts up to the bound", "why_tests_cant": "About 10^70 combinations; floating point rounding errors are data dependent.", "anchors": ["librksv/verify.py: verifyGroup", "librksv/utils.py: getReceiptFloat"]}
{"id": "C11", "title": "Chaining of an accepted DEP", "statement": "If a DEP is accepted, each receipt after the first carries the truncated hash of the full JWS string of its predecessor, and the first carries the truncated hash of the register ID (or of the previous register's start receipt, or the chaining value requested by the state).", "quantifier": "all DEPs, states and key stores", "why_tests_cant": "Must hold for every accepted history of any length.", "anchors": ["librksv/verify.py: verifyGroup", "librksv/verify.py: verifyChain", "librksv/verify.py: verifyDEP", "librksv/algorithms.py: R1.chain"]}
{"id": "C12", "title": "Signatures in an accepted DEP", "statement": "If a DEP is accepted, every receipt either carries the broken-signature-device marker or its signature verifies over its content under the key that belongs to the certificate or key ID in the receipt.", "quantifier": "all DEPs, states, certificates and key stores", "why_tests_cant": "Authenticity is a claim about every accepted input, including adversarial ones.", "anchors": ["librksv/verify.py: verifyGroup", "librksv/verify_receipt.py: ReceiptVerifier.verify"]}
{"id": "C13", "title": "Receipt IDs are unique in an accepted DEP", "statement": "If a DEP is accepted, no receipt ID occurs twice in it, and none of its receipt IDs (except possibly that of a receipt without any predecessor) was recorded as used before in the state.", "quantifier": "all DEPs and all states, both ID backends", "why_tests_cant": "Uniqueness over arbitrary long histories and across calls.", "anchors": ["librksv/verify.py: verifyGroup", "librksv/verification_state.py: UsedReceiptIdsUnique", "librksv/verification_state.py: UsedReceiptIdsSortedNatural"]}
{"id": "C14", "title": "Register ID, system type and time are consistent in an accepted DEP", "statement": "If a DEP is accepted, all its receipts have the same register ID, are all from an open or all from a closed system, and their time stamps never decrease, also relative to the last receipt in the state.", "quantifier": "all DEPs and states", "why_tests_cant": "Invariant over all histories.", "anchors": ["librksv/verify.py: verifyGroup"]}
{"id": "C15", "title": "Turnover counter of an accepted DEP", "statement": "If a DEP is accepted with an AES key given, then every standard receipt's decrypted turnover counter equals the state's counter plus the cents of all non-training receipts up to and including it, and the resulting state carries the final sum.", "quantifier": "all DEPs, states and keys", "why_tests_cant": "Invariant over all histories with arbitrary mixes of training and cancellation receipts.", "anchors": ["librksv/verify.py: verifyGroup", "librksv/receipt.py: Receipt.decryptTurnoverCounter"]}
{"id": "C16", "title": "Start receipt rules", "statement": "If a DEP that starts a new register is accepted, its first receipt is a signed standard receipt with all amounts zero and a valid signature.", "quantifier": "all DEPs verified from a fresh register state", "why_tests_cant": "Claim about all accepted inputs.", "anchors": ["librksv/verify.py: verifyGroup"]}
{"id": "C17", "title": "Restore receipt rule", "statement": "If a DEP is accepted then after an outage of the signature device at most one further non-zero signed receipt follows before a signed zero receipt: whenever a receipt marked as unsigned is directly followed by a signed non-zero, training or cancellation receipt, the next receipt (in this or the next verified DEP part) is a signed standard zero receipt.", "quantifier": "all DEPs and states, including across part boundaries", "why_tests_cant": "Temporal property over arbitrary histories and split points.", "anchors": ["librksv/verify.py: verifyGroup", "librksv/verification_state.py: CashRegisterState.needRestoreReceipt"]}
{"id": "C18", "title": "Exact acceptance condition", "statement": "A receipt sequence is accepted by the verifier if and only if it satisfies the declarative list of conditions above (well-formedness, signature, start receipt rules, chaining, uniqueness, consistency, restore rule, turnover counter): nothing valid is rejected, nothing invalid is accepted.", "quantifier": "all receipt sequences, states, keys and key stores", "why_tests_cant": "An equivalence over infinite sets of histories.", "anchors": ["librksv/verify.py: verifyGroup"]}
{"id": "C19", "title": "Tamper evidence", "statement": "Two accepted DEPs of the same length for the same register state which end in the same last receipt are identical, or exhibit a collision of the truncated hash.", "quantifier": "all pairs of accepted DEPs", "why_tests_cant": "Quantifies over all possible forgeries.", "anchors": ["librksv/verify.py: verifyGroup", "librksv/algorithms.py: R1.chain"]}
{"id": "C20", "title": "Verification in parts equals verification in one go", "statement": "Verifying a DEP and then a continuation from the resulting state has the same result, the same final state and the same error as verifying the concatenation.", "quantifier": "all receipt sequences, all split points, all states", "why_tests_cant": "Every split point of every DEP.", "anchors": ["librksv/verify.py: verifyGroup", "librksv/verification_state.py: CashRegisterState"]}
{"id": "C21", "title": "State update without verification is faithful", "statement": "Updating a register state from a receipt sequence without verification gives exactly the state that verification of this sequence would give, whenever verification succeeds and the state records either both or none of start receipt and last receipt.", "quantifier": "all receipt sequences and states", "why_tests_cant": "Parallel verification relies on this for every chunk.", "anchors": ["librksv/verification_state.py: CashRegisterState.updateFromDEPGroup", "librksv/verification_state.py: CashRegisterState.fromDEPGroup", "librksv/verify.py: prepareVerificationTuples"]}
{"id": "C22", "title": "Parallel verification equals sequential verification", "statement": "With a worker pool, for every chunk size, number of processes and completion order of the workers, verifyParsedDEP accepts exactly the DEPs verifyDEP accepts and returns the same state (for states of the usual form and DEPs whose groups all have certificates or that consist of one group).", "quantifier": "all DEPs, chunk sizes, numbers of parts, process counts up to four per worker and schedules", "why_tests_cant": "Schedules and partitions are unbounded.", "anchors": ["librksv/verify.py: verifyParsedDEP", "librksv/verify.py: verifyDEP", "librksv/verify.py: prepareVerificationTuples", "librksv/verify.py: packageChunkWithVerifiers"]}
{"id": "C23", "title": "Verification without pool honours nprocs", "statement": "verifyParsedDEP without a pool gives the same result for every value of nprocs.", "quantifier": "all DEPs, all values of nprocs", "why_tests_cant": "Tests only exercise nprocs with a pool and pool-less calls with nprocs 1.", "anchors": ["librksv/verify.py: verifyParsedDEP"]}
{"id": "C24", "title": "Chunk size does not matter", "statement": "Whether verifyParsedDEP accepts a DEP does not depend on the chunk size.", "quantifier": "all DEPs and chunk sizes", "why_tests_cant": "Needs all group/chunk alignments.", "anchors": ["librksv/verify.py: packageChunkWithVerifiers", "librksv/verify.py: verifyParsedDEP"]}
{"id": "C25", "title": "Incremental parser delivers the file's receipts", "statement": "For every well-formed DEP file and every chunk size, the chunks returned by the incremental parser contain, in order and with the right certificates, exactly the receipts of the file; every chunk except the last has exactly chunk size many receipts, the last has at most so many and none is empty, irrespective of the order of elements in the groups and of unknown elements.", "quantifier": "all JSON documents of DEP form, all chunk sizes", "why_tests_cant": "Infinite family of documents, element orders and chunk boundaries.", "anchors": ["librksv/depparser.py: IncrementalDEPParser.parse", "librksv/depparser.py: DEPStateReceiptList", "librksv/depparser.py: DEPStateGroup", "librksv/depparser.py: FileDEPParser"]}
{"id": "C26", "title": "Dictionary parser agrees with the incremental parser", "statement": "For every well-formed DEP and positive chunk size the dictionary based parser and the incremental file parser return identical chunks.", "quantifier": "all well-formed DEP documents and chunk sizes", "why_tests_cant": "Equality of two different algorithms on all inputs.", "anchors": ["librksv/depparser.py: DictDEPParser", "librksv/depparser.py: FileDEPParser"]}
{"id": "C27", "title": "Part count bound", "statement": "Parsing a DEP into n parts yields at most n chunks which together contain all receipts in order.", "quantifier": "all DEPs in which every Belege-kompakt is an array and all n > 1 (n = 1 is documented to give one chunk per group)", "why_tests_cant": "All sizes and all divisors.", "anchors": ["librksv/depparser.py: DictDEPParser.parse", "librksv/depparser.py: totalRecsInDictDEP"]}
{"id": "C28", "title": "Malformed DEPs are reported as such", "statement": "On every JSON document the DEP parsers either deliver all receipts or raise one of the library's DEP exceptions, and a document that lacks a required element or repeats it is rejected by the incremental parser.", "quantifier": "all JSON documents", "why_tests_cant": "All malformed documents.", "anchors": ["librksv/depparser.py: IncrementalDEPParser", "librksv/depparser.py: DictDEPParser", "librksv/depparser.py: parseDEPCert"]}
{"id": "C29", "title": "Work partitioning loses nothing", "statement": "Distributing chunks and groups onto processes never drops, duplicates or reorders receipts, keeps each receipt with its verifier and never creates more packages than processes.", "quantifier": "all group lists and process counts", "why_tests_cant": "All sizes.", "anchors": ["librksv/verify.py: balanceGroupsWithVerifiers", "librksv/verify.py: getChunksForProcs", "librksv/verify.py: packageChunkWithVerifiers"]}
{"id": "C30", "title": "Used-ID backends", "statement": "Merging the per-package sets of used receipt IDs accepts exactly if adding the IDs one by one with a check would, and gives the same set; every ID sequence the sorted backend accepts is accepted by the set backend.", "quantifier": "all ID sequences and partitions", "why_tests_cant": "All partitions of all sequences.", "anchors": ["librksv/verification_state.py: UsedReceiptIdsUnique.merge", "librksv/verification_state.py: UsedReceiptIdsSortedNatural.merge"]}
{"id": "C31", "title": "Cluster chaining", "statement": "If the registers of a cluster are verified one after the other, each register's first receipt is chained to the start receipt of the register before it, all these receipts belong to closed systems, and a register cannot be added before its predecessor has a start receipt.", "quantifier": "all cluster states and register indices", "why_tests_cant": "All cluster sizes and orders of verification.", "anchors": ["librksv/verification_state.py: ClusterState.getCashRegisterInfo", "librksv/verification_state.py: ClusterState.addNewCashRegister", "librksv/verify.py: verifyGroup"]}
{"id": "C32", "title": "Failed verification leaves the state unchanged", "statement": "If verification raises an exception the recorded data of all existing registers and the used receipt IDs in the passed state object are unchanged; on success only the verified register and the used IDs change.", "quantifier": "all states and DEPs", "why_tests_cant": "Every failure point in every DEP.", "anchors": ["librksv/verify.py: verifyDEP", "librksv/verify.py: verifyParsedDEP", "librksv/verification_state.py: ClusterState.updateCashRegisterInfo"]}
{"id": "C33", "title": "Starting in the middle", "statement": "If a register's receipt sequence is accepted, then from the state created from an arbitrary standard receipt of it the remaining sequence starting with this receipt is accepted too.", "quantifier": "all accepted sequences and all positions", "why_tests_cant": "Every position of every history.", "anchors": ["librksv/verification_state.py: ClusterState.fromArbitraryReceipt", "librksv/verify.py: verifyGroup"]}
{"id": "C34", "title": "State serialisation", "statement": "Writing a cluster state to JSON and reading it back gives an equivalent state for both ID backends.", "quantifier": "all states", "why_tests_cant": "All states incl. optional fields.", "anchors": ["librksv/verification_state.py: ClusterState.writeStateToJson", "librksv/verification_state.py: ClusterState.readStateFromJson", "librksv/verification_state.py: CashRegisterState.fromDict"]}
{"id": "C35", "title": "Certificate chain verification", "statement": "A group's certificate is accepted if and only if some certificate in the sequence (certificate, chain) is in the key store under its serial number with the same fingerprint, every certificate before it is signed by the next one and has no entry with another fingerprint in the key store.", "quantifier": "all chains and key stores", "why_tests_cant": "All chain lengths and key store contents.", "anchors": ["librksv/verify.py: verifyCert"]}
{"id": "C36", "title": "Key lookup by serial", "statement": "A certificate stored in the key store is found for a receipt that carries its serial number in hexadecimal or decimal notation, and a certificate given in the DEP is used only for receipts whose serial can be read as that certificate's serial number.", "quantifier": "all serial numbers and notations", "why_tests_cant": "All integers.", "anchors": ["librksv/key_store.py: strSerialToKeyIds", "librksv/key_store.py: numSerialToKeyId", "librksv/verify_receipt.py: ReceiptVerifier.verify"]}
{"id": "C37", "title": "Key store behaves as a map and survives serialisation", "statement": "Looking up a key returns what was last stored under that ID, deleting removes only it, and writing a key store built from PEM keys and certificates to JSON and reading it back preserves all entries.", "quantifier": "all operation sequences", "why_tests_cant": "All histories of operations.", "anchors": ["librksv/key_store.py: KeyStore"]}
{"id": "C38", "title": "PEM formatting", "statement": "Adding PEM headers and line breaks to single-line base64 data and stripping them again gives the original data, and no line is longer than 64 characters.", "quantifier": "all base64 strings", "why_tests_cant": "All lengths.", "anchors": ["librksv/utils.py: addPEMCertHeaders", "librksv/utils.py: addPEMPubKeyHeaders", "librksv/utils.py: exportCertToPEM", "librksv/utils.py: exportKeyToPEM"]}
{"id": "C39", "title": "Generated DEPs verify", "statement": "Every sequence of receipts issued by the demo cash register with working and broken signature systems according to the rules is accepted by the verifier, and the verifier's final turnover counter is the register's.", "quantifier": "all receipt sequences, keys, IDs, amounts within the bound", "why_tests_cant": "End-to-end claim over all histories.", "anchors": ["librksv/cashreg.py: CashRegister.receipt", "librksv/sigsys.py: SignatureSystemWorking", "librksv/verify.py: verifyGroup"]}
{"id": "C40", "title": "URL hash", "statement": "The URL hash of a receipt always has eleven URL-safe characters, is accepted for the receipt by verifyURLHash, anything else is rejected, and it is recovered from a URL that ends with it as path segment or fragment.", "quantifier": "all receipts and base URLs", "why_tests_cant": "All receipts/URLs.", "anchors": ["librksv/receipt.py: Receipt.toURLHash", "librksv/verify_receipt.py: verifyURLHash", "librksv/url_receipt_helpers.py: getURLHashFromURL"]}
{"id": "C41", "title": "Compressed receipts in memory", "statement": "Shrinking a receipt string of a DEP for storage and expanding it again gives the same string, or the string is rejected.", "quantifier": "all texts", "why_tests_cant": "All strings.", "anchors": ["librksv/depparser.py: shrinkDEPReceipt", "librksv/depparser.py: expandDEPReceipt"]}
{"id": "C42", "title": "Merging DEP groups", "statement": "Merging streams of DEP groups preserves the sequence of receipts, keeps every receipt in a group with its certificate and certificate chain, and leaves no two adjacent groups with identical certificate and chain.", "quantifier": "all sequences of groups", "why_tests_cant": "All sequences.", "anchors": ["librksv/depexport.py: MergingDEPStream", "merge.py"]}
{"id": "C43", "title": "Export and split tools", "statement": "Exporting parsed receipts to a DEP and parsing it again gives the same receipts with the same certificates; verifying the parts written by split one after the other is the same as verifying the original DEP, if its receipts are canonically encoded.", "quantifier": "all DEPs and chunk sizes", "why_tests_cant": "All DEPs.", "anchors": ["librksv/depexport.py: JSONExporter", "split.py", "librksv/depparser.py: receiptGroupAdapter"]}
{"id": "C44", "title": "Verified string is the signed string", "statement": "If a receipt string is accepted by the single receipt verifier, the signature is valid for exactly this string, i.e. no other JWS string carrying the same signature bytes and payload is accepted.", "quantifier": "all pairs of strings", "why_tests_cant": "Malleability is about all alternative encodings.", "anchors": ["librksv/verify_receipt.py: ReceiptVerifier.verifyJWS", "librksv/receipt.py: Receipt.fromJWSString"]}
{"id": "C45", "title": "Format independence of verification", "statement": "Verifying a receipt in its QR or CSV form gives the same verdict as verifying its JWS form, for canonically encoded receipts.", "quantifier": "all receipts, key stores", "why_tests_cant": "All receipts.", "anchors": ["librksv/verify_receipt.py: ReceiptVerifier.verifyBasicCode", "librksv/verify_receipt.py: ReceiptVerifier.verifyCSV", "librksv/verify_receipt.py: ReceiptVerifier.verifyJWS"]}
{"id": "C46", "title": "Options of verify.py do not change its verdict", "statement": "verify.py succeeds if and only if the key store and the state can be read and verifyDEP accepts the DEP for the chosen register, and it then writes the state verifyDEP leaves. The options par and chunksize change neither the verdict nor the state written. States written by verify.py can be read again.", "quantifier": "all key stores, states written by verify.py, DEP files with certificates for all groups or with one group, numbers of processes, chunk sizes, orders in which processes finish", "why_tests_cant": "The four code paths have to agree on every file and every state.", "anchors": ["verify.py: __main__"]}
{"id": "C47", "title": "Verification in several calls with state files", "statement": "Verifying a DEP with one call of verify.py succeeds and writes a state if and only if verifying its parts one after the other with the state of each call given to the next (state, then state continue) succeeds and ends with the same state; in particular for the files written by split.py.", "quantifier": "all DEPs, cuts, numbers of files, states, registers, and options of each call", "why_tests_cant": "All cuts of all DEPs.", "anchors": ["verify.py: __main__", "split.py: __main__", "librksv/verification_state.py: ClusterState.readStateFromJson", "librksv/verification_state.py: ClusterState.writeStateToJson"]}
{"id": "C48", "title": "Initialisation vectors are not reused", "statement": "Two receipts of an accepted DEP are encrypted with different initialisation vectors unless two different messages have hash values with the same first half. Two counters encrypted with the same vector and key reveal the bits in which they differ.", "quantifier": "all accepted DEPs with or without key, all states, all pairs of receipts", "why_tests_cant": "Absence of a repeated vector has to hold for every pair of receipts of every DEP; a test sees a few.", "anchors": ["librksv/algorithms.py: R1.encryptTurnoverCounter", "librksv/algorithms.py: R1.decryptTurnoverCounter", "librksv/verification_state.py: UsedReceiptIdsUnique", "librksv/verify.py: verifyGroup"]}
{"id": "C49", "title": "Verification without key leaves out the counter only", "statement": "A DEP is accepted with an AES key if and only if it is accepted without one and its counters are right. The resulting states differ only in the turnover counter of the register, which is unchanged without key.", "quantifier": "all DEPs, key stores, keys, states, registers", "why_tests_cant": "Requires comparing two runs on all DEPs, valid and invalid.", "anchors": ["librksv/verify.py: verifyGroup", "librksv/verify.py: verifyDEP"]}
{"id": "C50", "title": "Invalid DEPs are rejected with the library's exceptions", "statement": "If verifyDEP rejects a DEP whose receipts are texts, it raises one of the exceptions of the library, which have a message for the user, and no exception of Python itself, provided amounts have at most 15 characters and the used IDs are kept in a set.", "quantifier": "all DEPs, key stores, keys (also of wrong length), states, registers", "why_tests_cant": "Every way in which a DEP can be wrong is a different path to an exception.", "anchors": ["librksv/verify.py: verifyDEP", "librksv/verify.py: verifyGroup", "librksv/receipt.py: Receipt.fromJWSString", "librksv/depparser.py: DictDEPParser"]}
{"id": "C51", "title": "Conversion to CSV and back keeps the receipts", "statement": "convert.py json2csv writes the column names and one line per receipt, in the order of the DEP and independent of grouping and chunk size. convert.py csv2json turns that table into a DEP with a single group without certificates that has exactly the same receipt texts, and a DEP without certificates is accepted with the same new state before and after the conversion.", "quantifier": "all readable DEPs, chunk sizes, key stores, keys, states", "why_tests_cant": "Fields may contain any text, including separators, blanks and line breaks; DEPs may be grouped in any way.", "anchors": ["convert.py", "librksv/depexport.py: CSVExporter", "librksv/depexport.py: JSONExporter", "librksv/depparser.py: CertlessStreamDEPParser", "librksv/receipt.py: Receipt.fromCSV"]}
{"id": "C52", "title": "Commands of verification_state.py change what they name and nothing else", "statement": "show, addCashRegister, resetCashRegister, deleteCashRegister, copyCashRegister, the set commands, toggleNeedRestoreReceipt and readUsedReceiptIds succeed exactly if the state file can be read and the register number is valid; the new state file stands for the old state with exactly the named register, field or ID set changed.", "quantifier": "all state files, commands, register numbers including negative ones, texts", "why_tests_cant": "Every command must leave all other registers, fields and IDs of any state alone.", "anchors": ["verification_state.py", "librksv/verification_state.py: ClusterState.updateCashRegisterInfo", "librksv/verification_state.py: ClusterState.addNewCashRegister"]}
{"id": "C53", "title": "updateCashRegister acts as if the DEP had been verified", "statement": "If verification would accept a DEP for a register, verification_state.py updateCashRegister leads to the same register states as verification, for every chunk size, and a further DEP that verification accepts afterwards is also accepted from the updated state.", "quantifier": "all DEPs, groupings, chunk sizes, states, registers, keys", "why_tests_cant": "The update looks only at the ends of each piece of the DEP and must agree with verification, which looks at every receipt.", "anchors": ["verification_state.py", "librksv/verification_state.py: CashRegisterState.updateFromDEPGroup", "librksv/depparser.py: CertlessStreamDEPParser", "README.md: updateCashRegister"]}
{"id": "C54", "title": "States can be created from receipts in any format", "statement": "verification_state.py fromArbitraryReceipt and fromArbitraryStartReceipt create the same state whether the receipt is given in JWS, QR or CSV form.", "quantifier": "all receipts in canonical encoding whose fields survive CSV, all keys", "why_tests_cant": "Each format has its own parser.", "anchors": ["verification_state.py: INPUT_FORMATS", "librksv/verification_state.py: ClusterState.fromArbitraryReceipt", "librksv/verification_state.py: ClusterState.fromArbitraryStartReceipt"]}
{"id": "C55", "title": "key_store.py changes exactly what it is asked to change", "statement": "key_store.py add, del, setSymmetricKey and deleteSymmetricKey succeed exactly if their arguments are valid; the key store file read back afterwards has the new entry, and every other entry and the AES key unchanged. list prints exactly the IDs in the file, once each.", "quantifier": "all key store files whose certificate IDs carry no minus sign, all commands and arguments", "why_tests_cant": "Any sequence of commands on any file; IDs are normalised on reading.", "anchors": ["key_store.py: __main__", "librksv/key_store.py: KeyStore.readStoreFromJson", "librksv/key_store.py: KeyStore.writeStoreToJson"]}
{"id": "C56", "title": "A key store survives the INI format", "statement": "Converting a key store to the legacy INI format and back keeps what is found under every ID; the AES key is not kept.", "quantifier": "all key stores whose public key IDs can be written to INI files", "why_tests_cant": "IDs are arbitrary texts, and colons in them are replaced to get past the INI syntax.", "anchors": ["key_store.py: __main__", "librksv/key_store.py: KeyStore.readStore", "librksv/key_store.py: KeyStore.writeStore"]}
{"id": "C57", "title": "cert_extract.py extracts the certificates of the DEP and nothing else", "statement": "Every certificate of a group with receipts ends up in a file named by its serial number from which it can be loaded; files of other names are not touched. Whatever the input is, files that change contain certificates from it.", "quantifier": "all DEPs with certificates before receipts or with fewer receipts than a chunk; for the second part all inputs", "why_tests_cant": "Depends on element order, chunk size and number of receipts; tests use small DEPs in one order.", "anchors": ["cert_extract.py: __main__", "librksv/depparser.py: CertlessStreamDEPParser"]}
{"id": "C58", "title": "Key store files mean what they say", "statement": "A JSON key store is read exactly if every entry is well formed (names agree, known type, readable PEM data, certificate names are numbers), and then the key and certificate found under an ID are those of the last entry about this ID. Other files are rejected with a KeyStoreException.", "quantifier": "all JSON values", "why_tests_cant": "Files are arbitrary; names are read in several notations, so different names may mean the same ID.", "anchors": ["librksv/key_store.py: KeyStore.readStoreFromJson", "librksv/key_store.py: strSerialToKeyIds"]}
{"id": "C59", "title": "receipt.py converts between formats without loss", "statement": "receipt.py turns each line of its input into one line of output. If the lines give receipts in canonical encoding and without line breaks in their fields, in any of the formats jws, qr, csv, url (and ocr in Python 2), the output has the same receipts in the same order in the other format, and converting that back gives the original text. For any input it converts lines one by one and stops at the first that cannot be read, having printed those before.", "quantifier": "all inputs, all pairs of formats, all receipts, any behaviour of the network", "why_tests_cant": "Twenty-five pairs of formats times all texts of receipts; the test suite converts single receipts by the library only and never runs the command.", "anchors": ["receipt.py:31-64", "librksv/receipt.py"]}
{"id": "C60", "title": "verify_receipt.py reports exactly the bad receipts", "statement": "For receipts given as JWS, QR codes or CSV, verify_receipt.py counts all lines and reports exactly those, by number and in order, that are not receipts signed with the key of the key store that their serial or key ID names; the other lines are counted as verified. The report is the same in every format, including URLs that carry the right hash.", "quantifier": "all key stores, all texts of any number of lines, all formats", "why_tests_cant": "The number of receipts and their texts are unbounded; that no text ends the loop early depends on all exceptions that parsing and verification can raise.", "anchors": ["verify_receipt.py:37-85", "librksv/verify_receipt.py:186-297"]}
{"id": "C61", "title": "DEPs in the graphical program", "statement": "The graphical program displays a DEP exactly if it is well formed, contains a receipt and all its receipts can be read, and then shows the serial numbers of its certificates and its receipt IDs. With the key that was entered, or none, it calls a displayed DEP valid exactly if verify.py accepts it, whatever the number of worker processes.", "quantifier": "all files, key stores, entered keys and numbers of processes", "why_tests_cant": "Receipts are distributed over workers that start from predicted states; that the verdict is the same as that of sequential verification for every DEP and every number of workers cannot be tried out.", "anchors": ["rktool.py:561-782"]}
{"id": "C62", "title": "Receipts in the graphical program", "statement": "A receipt entered as JWS, QR code, OCR text or URL is displayed and, on request, called validly signed exactly if verify_receipt.py verifies it with the same key store, including the hash in URLs.", "quantifier": "all texts, formats, key stores and answers of the network", "why_tests_cant": "The program makes the checks in another order and in other processes than verify_receipt.py; equality of the verdicts is about all texts.", "anchors": ["rktool.py:248-254", "rktool.py:354-364", "rktool.py:525-559"]}
{"id": "C63", "title": "The key store of the graphical program", "statement": "Adding a certificate or public key from a file, taking over a certificate of a DEP, and deleting change what is found under the one ID concerned and nothing else; importing replaces the key store by that of the file. Exported after any actions and imported again, the key store is the same.", "quantifier": "all sequences of actions, files and key stores", "why_tests_cant": "The key store is the result of any number of actions in any order; each of them must preserve what makes it exportable.", "anchors": ["rktool.py:595-598", "rktool.py:856-966"]}
{"id": "C64", "title": "Actions of the graphical program end", "statement": "Every action (loading and verifying a DEP, viewing and verifying a receipt, changing the key store) ends with its result or with an error message; no input leaves it hanging or ends the program.", "quantifier": "all files, texts, keys and key stores", "why_tests_cant": "It depends on all exceptions that any input can cause in the library being among those handled.", "anchors": ["rktool.py:248-254", "rktool.py:525-782", "rktool.py:893-952"]}
{"id": "C65", "title": "Verification with worker processes ends with the right result", "statement": "verify.py with several processes always ends, and with the result (or the exception) that the verification has when nothing has to be sent between processes; no exception raised by a worker is lost.", "quantifier": "all documents, key stores, states, numbers of processes, chunk sizes and schedules", "why_tests_cant": "Whether an exception survives the trip between processes depends on its class; tests would have to raise every exception in a worker for every kind of task.", "anchors": ["librksv/utils.py:40-70", "librksv/utils.py:369-388", "librksv/verify.py:593-640", "verify.py:112-154"]}
{"id": "C66", "title": "The demo program makes valid DEPs", "statement": "demo.py, given a private key, a certificate or key ID, an AES key and a number of receipts, prints a DEP with that many receipts, numbered from 0 in at least five digits, which verify.py accepts with a key store that has the public key, with and without the AES key, and with both ways to record receipt IDs.", "quantifier": "all key pairs, certificates or key IDs, AES keys of 32 octets, numbers of receipts up to 10^13, readings of the clock and results of the random number generator", "why_tests_cant": "The receipts are random: five amounts with rounding to cents, types of receipts and points in time; a test sees a few of them.", "anchors": ["demo.py:45-118", "librksv/depexport.py:154-161", "librksv/cashreg.py:101-191"]}
{"id": "C67", "title": "Test specifications produce the DEPs they describe", "statement": "If a test specification follows the rules for registers (zero start receipts, order of time, receipts after outages, closed registers in clusters, new IDs, known devices), runTest produces one DEP per part, and verifying them one after another as test_verify.py does accepts all of them: each DEP is taken for the register it belongs to, a register's turnover counter is the turnover of its instructions, stated turnovers match, and all receipt IDs are recorded.", "quantifier": "all specifications: any number of devices, instructions, groups, registers in the cluster and continued registers; all AES keys of 32 octets, counter sizes, both ways to record receipt IDs", "why_tests_cant": "run_test.py is the generator of the project's own verification tests; a fault in its bookkeeping of registers and DEPs shows only for particular sequences of new, continued and clustered DEPs, and then as a fault of the verifier.", "anchors": ["librksv/run_test.py:38-254", "librksv/test/test_verify.py:79-230"]}
{"id": "C68", "title": "JSON files keep what is written", "statement": "readJsonStream returns a document exactly if the text, apart from one byte order mark in front, belongs to the grammar of JSON with NaN and Infinity, and then the document the grammar assigns to it with the last of several equally named members. A document written by json.dump or JSONExporter, indented or not, is pure ASCII and read back as the same document; so states, key stores and exported DEPs survive being written to files. FullFileDEPParser answers any other text with DEPParseException.", "quantifier": "all texts; all documents of any size and depth whose strings contain no high surrogate directly followed by a low one; all states, key stores filled from PEM texts and exported DEPs", "why_tests_cant": "Escapes, surrogate pairs, numbers, nesting and blanks combine in unboundedly many ways; tests read back a few files.", "anchors": ["librksv/utils.py:340-367", "librksv/depexport.py:221-238", "librksv/depparser.py:680-702", "verification_state.py:258", "key_store.py:132"]}
{"id": "C69", "title": "The receipt host serves the receipts of a DEP", "statement": "receipt_host.py started with a readable DEP, in particular with any DEP that was accepted by verification, answers a request for a URL hash with the basic code of the newest receipt that has this hash, and with status 404 if there is none; it does not start with a malformed DEP or with unreadable receipts. The same holds for receipts in lines. A client that fetches and verifies a receipt of the DEP by its hash comes to the verdict that verification of the receipt itself gives, unless another receipt has the same hash.", "quantifier": "all DEPs, lists of lines, chunk sizes, hashes, verifiers and base URLs", "why_tests_cant": "The store depends on all receipts, their order and possible collisions of shortened hashes; the verdict passes through two formats.", "anchors": ["receipt_host.py", "librksv/url_receipt_helpers.py: getAndVerifyReceiptURL", "librksv/url_receipt_helpers.py: getBasicCodeFromURL", "librksv/receipt.py: Receipt.toURLHash", "librksv/depparser.py: CertlessStreamDEPParser"]}
{"id": "C70", "title": "The view of a receipt shows what the receipt says", "statement": "The graphical program displays a receipt's fields unchanged, its time in a form that reads back as that time, and its amounts so that they round to the printed cents. After a correct AES key was typed or loaded from a file the turnover counter is displayed so that it rounds to the encrypted number of cents; without one the encrypted field is shown, and instead of it the kind of training and cancellation receipts. Anything that is no base64 text of 32 octets is refused with a message and leaves the view as it was. The signature is called valid only after it was verified with a key store, and an unsigned receipt is displayed as such. This stays so in any sequence of actions, and no action ends the program.", "quantifier": "all receipts, typed keys, key files, key stores and sequences of actions", "why_tests_cant": "The display depends on binary floating point numbers, on the order of actions and on any text a user may type or load.", "anchors": ["rktool.py: ViewReceiptWidget.__init__", "rktool.py: ViewReceiptWidget.updateView", "rktool.py: ViewReceiptWidget.setKey", "rktool.py: ViewReceiptWidget.loadAESCb", "rktool.py: ViewReceiptWidget.verifyCb", "librksv/receipt.py: Receipt.decryptTurnoverCounter"]}
{"id": "C71", "title": "A rejection names the first fault and the rule it breaks", "statement": "If verifyDEP rejects a readable DEP, everything before some place is in order: the groups are trusted and the receipts form a valid sequence for the register. At this place is a group whose certificate is not trusted, a text that is no receipt, or a receipt that breaks a rule. The exception carries the ID of that receipt (or the serials of the certificates concerned), and its class says which rule is broken: signature, missing key, wrong certificate, missing restore receipt, form of the start receipt, reuse of an ID, change of register or kind of system, decreasing time, chaining (of an ordinary, a start, or a cluster's start receipt) or turnover counter. No exception of this kind is raised for a receipt or certificate that keeps the rule named.", "quantifier": "all readable DEPs, key stores, keys, clusters and register indices", "why_tests_cant": "The place and the kind of the first fault range over all positions and all combinations of rules; tests look at one fault in one DEP each.", "anchors": ["librksv/verify.py: verifyDEP", "librksv/verify.py: verifyGroup", "librksv/verify.py: verifyChain", "librksv/verify.py: verifyCert", "librksv/verify_receipt.py: ReceiptVerifier.verify", "librksv/verification_state.py: UsedReceiptIdsUnique.check"]}
{"id": "C72", "title": "The test harness passes exactly the tests that behave as specified", "statement": "A test of test_verify.py without an expected exception passes if and only if its DEPs can be generated and are accepted one after another with the annotated turnovers: verification in parallel with a random chunk size, the comparison of the incremental with the dictionary parser and the state computed without verification never turn such a test into a failure. In general a test passes if and only if both ways of verification end as expected: without an exception, or with one of the named class or a class derived from it, at the named receipt, with the named message. If a test expecting an exception passes, a generated DEP is rejected after all earlier ones were accepted, and the rule the exception stands for is really broken.", "quantifier": "all specifications, expectations, key stores, chunk sizes drawn and schedules of processes", "why_tests_cant": "This is about the test harness itself: whether its self-checks and comparisons can reject correct behaviour or accept wrong behaviour depends on all specifications, the chunk size drawn at random and the order in which processes finish.", "anchors": ["librksv/test/test_verify.py: _testVerify", "librksv/test/test_verify.py: testVerify", "librksv/test/verification_proxy.py: LibRKSVVerificationProxy", "librksv/run_test.py: runTest"]}
{"id": "C73", "title": "A remote signature service gives the receipts of a local device", "statement": "With SignatureSystemATrustMobile, a register makes exactly the receipts that a local working device of the same certificate would make while the service replies with the signed payload, and those of a broken device while it cannot be reached; so the DEP of orderly requests verifies whatever the outages are. Whatever the service replies, a receipt that is made carries the requested identification, time, sums and certificate serial, and the signature part of the reply. The DEP of demo.py with the service verifies if the service, once lost, stays lost; it need not verify if the service comes back. A reply that is no JSON text must not spoil the receipts made after it.", "quantifier": "all requests, registers, services, outages, key stores and numbers of receipts", "why_tests_cant": "The tests never use the network; outages can occur before any receipt, and replies can be anything.", "anchors": ["librksv/sigsys.py: SignatureSystemATrustMobile", "librksv/cashreg.py: CashRegister.receipt", "demo.py"]}
{"id": "C74", "title": "Overrides inject exactly the fault they stand for", "statement": "CashRegister.receipt without overrides makes the regular receipt. With overrides, the receipt carries each overridden value and the requested value everywhere else; an overridden turnover counter or counter size stays in the register. If, after any orderly requests of a register, one receipt is made with an override that breaks a rule (the ID of an earlier receipt, another register ID, a change between open and closed system, a time before the previous receipt, another chaining value, another turnover counter, another sum, another signature, a serial that names another certificate or no key), then whatever follows it the DEP is rejected with the exception that stands for the rule, naming that receipt. A receipt whose signature is overridden by the outage marker is as good as one of a broken device, so that regular receipts can follow it.", "quantifier": "all registers, request sequences, overrides, key stores, certificates and receipts that follow", "why_tests_cant": "The specifications under tests/ use each override at a few places of a few fixed sequences; whether the injected fault is the one reported depends on everything before and after it.", "anchors": ["librksv/cashreg.py: MangledReceipt", "librksv/cashreg.py: CashRegister.receipt", "librksv/run_test.py: runTest"]}
{"id": "C75", "title": "A fault of the last receipt is reported alike by sequential and parallel verification", "statement": "If a DEP is in order but for its last receipt, verifyDEP and verifyParsedDEP both reject it, leave the same state behind, and raise exceptions about that receipt that name rules it violates, whatever the number of processes, the schedule, the chunk size and the parser. The exception is the same if the receipt cannot be read or violates one rule only; in particular for every override of C74. A receipt that violates several rules may be rejected for different ones.", "quantifier": "all DEPs in order but for the last receipt, all states of the cluster, key stores, chunk sizes, numbers of parts and isolated schedules", "why_tests_cant": "The prediction of start states, the merge of used receipt IDs and the order of results depend on where the chunks end; tests run a few DEPs with one random chunk size each.", "anchors": ["librksv/verify.py: verifyDEP", "librksv/verify.py: verifyParsedDEP", "librksv/verification_state.py: CashRegisterState.updateFromDEPGroup", "librksv/verification_state.py: UsedReceiptIds merge"]}
{"id": "C76", "title": "A test with a faulty last receipt passes exactly if it expects that fault", "statement": "If the instructions of a test specification for one DEP follow the rules, and the last one has an override that breaks a rule (as in C74), the DEP is made, and verification in sequence and in parallel both end with the exception that is due for this override. So the test passes if and only if it expects this exception or a class it is derived from, and names its receipt and its message if at all; it does not pass if it expects no exception, or another one.", "quantifier": "all test specifications for one DEP that are orderly but for an override of the last receipt, all devices, key stores, expectations, isolated schedules and numbers drawn", "why_tests_cant": "The test suite consists of such specifications: each one is run with a chunk size drawn at random and the schedule that happens, and cannot tell whether the expected exception is the right one.", "anchors": ["librksv/run_test.py: runTest", "librksv/test/test_verify.py: _testVerify", "librksv/cashreg.py: CashRegister.receipt", "librksv/verify.py: verifyParsedDEP"]}
{"id": "C77", "title": "The exception for an unreadable receipt says exactly what is wrong with its text", "statement": "Reading a text in JWS form, or a QR code, fails with an exception if and only if the text has the fault this exception stands for: it does not consist of three decodable segments or of the thirteen elements (MalformedReceipt with the text), the algorithm is unknown or does not match the header, the receipt has no ID, an element is malformed (MalformedReceipt with the receipt's ID), the serial number is of no known kind, or does not fit the provider, the signature cannot be decoded, or the chaining value has the wrong length - in this order of precedence. So receipts whose elements were overridden so that they cannot be read any more are rejected with a known exception, in sequence and in parallel, and a test specification with such a last receipt passes if and only if it expects it.", "quantifier": "all texts without lone surrogates; all overrides of one element of the last receipt that make it unreadable, with all test specifications, devices, expectations and isolated schedules", "why_tests_cant": "Each test has one malformed element; the precedence between faults and the absence of other exceptions concern all texts.", "anchors": ["librksv/receipt.py: Receipt.fromJWSString", "librksv/receipt.py: Receipt.fromBasicCode", "librksv/receipt.py: Receipt.__init__", "librksv/cashreg.py: CashRegister.receipt", "librksv/test/test_verify.py: _testVerify"]}
{"id": "C78", "title": "A test specification in order passes as a whole, with the keys and certificates made for it", "statement": "For a test specification that asks for no fault, runTest makes signature devices and a key store that fit together: the keys are found by the serial numbers on the receipts (company and number of the device, or the certificate's serial number in hexadecimal or decimal notation), or the certificate chains exported with the groups are signed in turn up to a certificate of the key store. Writing the key store to JSON and reading it again gives the same key store. If the instructions are in order and no exception is expected, testVerify answers OK with no message, for closed and open systems, with one or several groups, for chains of any length.", "quantifier": "all test specifications, numbers of devices, chain lengths, key material, random numbers and certificates (with serial numbers apart), instructions, backends of used IDs and isolated schedules", "why_tests_cant": "The repository's specifications have few devices and short chains, and keys and serial numbers are drawn anew in each run; that no draw or length makes a test fail concerns all of them.", "anchors": ["librksv/run_test.py: runTest", "librksv/test/test_verify.py: testVerify", "librksv/test/test_verify.py: _testVerify", "librksv/utils.py: makeSignedCert", "librksv/key_store.py: KeyStore.putPEMCert"]}
{"id": "C79", "title": "Untrusted certificates are reported alike in sequence and in parallel, and tests that ask for them pass exactly if they expect this", "statement": "If everything before the first group whose certificate is not trusted is in order, verifyDEP and verifyParsedDEP reject the DEP with the same exception and the same state, for every number of parts, chunk size, schedule and parser, whatever follows. The exception is UntrustedCertificate, CertificateChainBroken or CertificateSerialCollision, as the chain and the key store are, with the serial numbers concerned, and only one is right. A test specification with one device that asks for such a flaw (omitSignCert apart: omitRootCert, certChainFailure, certSerialCollision) passes as a whole if and only if it expects the exception due, or a class it is derived from.", "quantifier": "all DEPs with such a group, all states, key stores, chains, chunk sizes, numbers of parts and isolated schedules; all test specifications with such a flaw, key material, chain lengths, instructions and expectations", "why_tests_cant": "A certificate is checked when its group is reached, in parallel before any receipt of the chunk is verified; which exception comes first depends on the chunks, and chains may have any length.", "anchors": ["librksv/verify.py: verifyCert", "librksv/verify.py: verifyDEP", "librksv/verify.py: verifyParsedDEP", "librksv/run_test.py: runTest", "librksv/test/test_verify.py: testVerify"]}
{"id": "C80", "title": "The files run_test.py writes for a test specification in order are accepted by verify.py", "statement": "run_test.py writes files if and only if its arguments are a kind of system, a specification, a private key and a certificate (or public key) for each signature device and possibly a counter size from 5 to 16, all files can be read and the test can be run. It writes the key material and one file per DEP, no file twice, DEP number k as dep-exportk.json, or dep-export.json if there is only one. If the specification is in order, verify.py with the written key material accepts these files: one after the other with the state passed on and the register each DEP belongs to, and a single DEP without state, for all numbers of processes and chunk sizes. The counters in the final state are the turnovers the specification asks for.", "quantifier": "all command lines, files, test specifications, key material, random numbers and certificates (with serial numbers apart), backends of used IDs, numbers of processes, chunk sizes", "why_tests_cant": "Two programs are connected by files and by a state passed from run to run; the number of DEPs and registers, their order, the key material and the ways of verification are unbounded.", "anchors": ["run_test.py: main program", "librksv/run_test.py: runTest", "verify.py: main program", "librksv/verification_state.py: ClusterState", "librksv/key_store.py: KeyStore.writeStoreToJson"]}
{"id": "C81", "title": "test_verify.py reports every test case of a group once, with the outcome it has alone, and its status is the worst result", "statement": "With the arguments for several test cases, test_verify.py runs each case once for each counter size and each kind of system (open first; only the one kind if the case fixes it), in a fixed order: sizes, then cases, then kinds. It prints one line for each of them with label, kind, size, group and result, and these are the outcome testVerify has for that case alone with the given size and the certificate or public key fitting the kind; a case without a label is an error. Then it prints the numbers of tests, failures and errors. The exit status is 0 if all tests pass, 1 if there are failures but no errors and 2 if there are errors. With the arguments for one case it prints the line of that case and has its status. If all cases are in order, the status is 0. Lines that fit into the columns determine what they report.", "quantifier": "all command lines, files, test cases, labels, groups, sizes, key material, random numbers and schedules, backends", "why_tests_cant": "This is the program that runs the tests; whether it can drop, mix up or misreport results of arbitrary groups of cases is not decided by running it on some.", "anchors": ["librksv/test/test_verify.py: testVerifyMulti, printTestVerifyResult, printTestVerifySummary", "test_verify.py: main program"]}
{"id": "C82", "title": "OCR codes and CSV lines are read as the QR codes they stand for, and rejected for exactly the faults they have", "statement": "Base 32 elements are decoded as RFC 4648 defines, bit by bit. An OCR code (Python 2) is read if and only if it has thirteen elements, the counter, the chaining value and the signature are base 32 texts, and the QR code with the same octets in base 64 can be read; the receipt is the same. Otherwise the exception is MalformedReceipt with the OCR code if the elements or the base 32 texts are wrong, UnicodeEncodeError if the first wrong one of these is not ASCII, and the exception due for the QR code in all other cases. On Python 3 no OCR code can be read: AttributeError if there are thirteen elements. A CSV line stands for exactly one QR code, given by its elements without the white space around them; reading the line is reading that code, and its exceptions are those of the code.", "quantifier": "all texts (for faults: without lone surrogates)", "why_tests_cant": "The tests read some well-formed codes; the precedence of faults and the agreement with the RFC concern all texts.", "anchors": ["librksv/receipt.py: Receipt.fromOCRCode", "librksv/receipt.py: Receipt.fromCSV", "librksv/utils.py: b32decode"]}
{"id": "C83", "title": "verify.py understands exactly the command lines it documents, and reports success only for an accepted DEP", "statement": "verify.py starts a verification if and only if its arguments consist of the parts of the usage message (state with continue or a number, par, chunksize, json, key store, DEP) in this order, with numbers in range; words that can start a part are taken as such. Documented command lines are understood as documented if the name of the key store is no number and none of the words. 'state' alone writes a new state; all other arguments give the usage message. It prints 'Verification successful.' if and only if the DEP in the named file is accepted by verifyDEP with the keys in the named store, the state on standard input and the chosen register, and then writes the new state; the exit status is zero if it does so.", "quantifier": "all argument lists, environment variables, files, states, backends and schedules", "why_tests_cant": "The tests call the library; the mapping from arbitrary argument lists to a verification is not tested at all.", "anchors": ["verify.py: main program", "librksv/utils.py: depParserChunkSize"]}
{"id": "C84", "title": "verification_state.py does what its usage message says and never breaks a state file", "statement": "A call of verification_state.py succeeds if and only if its words are one of the lines of the usage message (with numbers where numbers are asked for and files that can be read) and the command succeeds; it then writes the new state to the state file and nothing else. The usage message is shown if and only if the command, the number of words or the format is unknown. Whatever calls are made in whatever order, a file that holds a state goes on to hold one, and files that are never named as the state file stay as they are. show leaves the state as it is and its output determines the registers (but for the chaining value) and the kind of the used IDs.", "quantifier": "all argument lists, sequences of calls, files, states and backends", "why_tests_cant": "The program has no tests; sequences of calls with arbitrary, also wrong, arguments cannot be enumerated.", "anchors": ["verification_state.py: main program, printClusterState, printCashRegisterState, printStateField"]}
{"id": "C85", "title": "key_store.py does what its usage message says and never breaks a key store it can read", "statement": "A call of key_store.py succeeds if and only if its words are one of the lines of the usage message, the files named can be read and the command succeeds; it then writes the key store, if the command changes it, and nothing else. The usage message is shown if and only if the command or the number of words is unknown. list, showSymmetricKey and toLegacyIni never write a file. Whatever calls are made in whatever order and whatever is typed, a file that holds a readable key store goes on to hold one, and files that are never named as the key store stay as they are.", "quantifier": "all argument lists, inputs, sequences of calls and files", "why_tests_cant": "The program has no tests; sequences of calls with arbitrary, also wrong, arguments and files cannot be enumerated.", "anchors": ["key_store.py: main program", "librksv/key_store.py: KeyStore.readStoreFromJson, writeStoreToJson, readStore, writeStore"]}
{"id": "C86", "title": "A DEP split by split.py and merged by merge.py is the same DEP", "statement": "split.py, given a positive number and a directory, writes the DEP on standard input to files numbered from 0 in the directory and nothing else; merge.py, given at least two files, prints one DEP with the receipts of the files in the order of the words; convert.py understands json2csv and csv2json. All other words lead to the usage message or an exception. If a DEP is split into at least two files and these are merged in the order of their numbers (with or without nomerge), the result has the same receipts in the same order with the same certificates, and (with nomerge, or if chains do not differ) the same chains; it is accepted for the same key stores, keys and states, and leads to the same state.", "quantifier": "all argument lists, DEPs in the usual encoding, files present before, chunk sizes, key stores, AES keys and cluster states", "why_tests_cant": "The scripts have no tests; the number of parts, the places where groups are cut and the chunk sizes are unbounded.", "anchors": ["split.py: main program", "merge.py: main program", "convert.py: main program", "librksv/depexport.py: MergingDEPStream, DEPStream, JSONExporter"]}
{"id": "C87", "title": "What receipt.py and verify_receipt.py print tells which receipts are good", "statement": "receipt.py, given the names of two formats, converts the lines of its standard input; with any other words it shows its usage. verify_receipt.py, given a format, a key store and possibly a receipt, prints one numbered line for every receipt that is not signed with the right key, in order, and then how many of how many are good; with other words it shows its usage. From what is printed one can tell which receipts failed, why, and how many there were.", "quantifier": "all argument lists, standard inputs, key stores, networks and reasons of exceptions", "why_tests_cant": "The scripts have no tests; receipts are input of unbounded length from others, and a report that can be read in two ways exists only for receipts made for it.", "anchors": ["receipt.py: main program", "verify_receipt.py: main program", "librksv/receipt.py: ReceiptException and its subclasses", "librksv/verify_receipt.py: exceptions"]}
{"id": "C88", "title": "A DEP made by demo.py is accepted by verify.py with a key store made by key_store.py", "statement": "If key_store.py is called to create a key store, to add a certificate (or a public key under an ID) and to set an AES key, and demo.py is called with the private key that belongs to it, the same AES key file and a number of receipts, demo.py prints a DEP, and verify.py called with the key store and the DEP, with any options par and chunksize, reports success and ends with status 0. The same holds with the signature service, if the key store holds its certificate and the service, once it cannot be reached, stays so. A DEP is printed only if all files named were read, and has as many receipts as asked for; a number below one is refused. With a number of words other than two, four or five demo.py shows its usage.", "quantifier": "all worlds with sound cryptography, files, keys, certificates, numbers of receipts up to 10^13, random numbers, clocks that do not go back, and options of verify.py", "why_tests_cant": "demo.py has no tests, its receipts are random, and what is claimed is about three programs that only share files.", "anchors": ["demo.py: main program, receiptGen", "key_store.py: main program", "verify.py: main program", "librksv/utils.py: loadB64Key, b64decode"]}
{"id": "C89", "title": "A key store made of the certificates extracted from a DEP trusts these and no others", "statement": "If cert_extract.py is called with a DEP on standard input and a directory, and key_store.py is called to create a key store and to add, in any order, the files that cert_extract.py wrote for the certificates of the DEP, then the key store contains exactly the certificates of the groups with receipts and their chains, each under the ID of its serial number with its public key, and verification trusts the certificates of these groups. If all groups with receipts have certificates and the DEP is accepted with any key store, it is accepted with this one, with the same state afterwards. Whatever the input is, files that change contain certificates of the input, and the status is 1 if the DEP cannot be read. cert_extract.py shows its usage if and only if it is not given exactly one word.", "quantifier": "all worlds with sound PEM handling, DEP documents, chunk sizes (unless certificates come after receipts in a group and a chunk ends between them), directories with any files in them before, orders and repetitions of the calls", "why_tests_cant": "cert_extract.py has no tests; the claim joins two programs by files they share, for any number of certificates in any order.", "anchors": ["cert_extract.py: main program", "key_store.py: main program (add)", "librksv/utils.py: addPEMCertHeaders, exportCertToPEM, loadCert", "librksv/verify.py: verifyCert"]}
{"id": "C90", "title": "A test can replace the text of a receipt, and the replaced text is what is verified", "statement": "If a test specification replaces the text of receipts (jwsOverride), the DEP contains exactly the texts given at their places and the receipts' own texts at all others. The replacement changes neither the other receipts nor the register nor the exception that may end their creation. If the first replaced text cannot be read, after any orderly regular receipts, verification ends with the exception due for this text, whatever the receipt was and whatever follows. If a text is replaced by an equally valid one, the DEP remains acceptable.", "quantifier": "all worlds with sound cryptography, registers, requests, overrides, replaced texts, numbers of receipts, and verification with or without the AES key", "why_tests_cant": "The tests in tests/malformed replace single texts in DEPs of one receipt; they are themselves test specifications whose meaning depends on this mechanism, and cannot show what it does to the receipts around it.", "anchors": ["librksv/cashreg.py: MangledReceipt.toJWSString, CashRegister.receipt", "librksv/depexport.py: DEPExporter.export", "librksv/run_test.py: runTest"]}
