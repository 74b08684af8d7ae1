(** The graphical program rktool.py (main.py has the same contents): DEPs, receipts and
    key stores. The widgets themselves are not modelled, only what they are given. *)
From Verif Require Import PyBase World Codec Algo Receipt Json KeyStore VerifyReceipt State DepBase DepParser Verify Url DepExport StateCli ReceiptCli.
Open Scope N_scope.
Open Scope py_scope.

(** How an action ends: it has a result, or an exception is displayed (displayError,
    rktool.py:213-217), or the exception is not caught. In the latter case the program
    ends or, if a worker raised it, nothing happens any more: neither apply_async nor
    map_async calls the callback then, and none is given for errors. *)
Inductive shown (A : Type) : Type :=
| Done (a : A)
| Displayed (e : exn)
| Lost (e : exn).
Arguments Done {A} a.
Arguments Displayed {A} e.
Arguments Lost {A} e.

Definition show {A} (caught : exn -> bool) (r : result A) : shown A :=
  match r with
  | Ok a => Done a
  | Err e => if caught e then Displayed e else Lost e
  end.

(** The subclasses of depparser.DEPException: librksv/depparser.py:36-115,
    librksv/verify.py:42-236, librksv/verification_state.py:112-122 *)
Definition dep_exception_class (e : exn) : bool :=
  match e with
  | ClusterInOpenSystem | ChainingError _ | NoRestoreReceipt _ | InvalidTurnoverCounter _ | CertSerialCollision _ _ _
  | UntrustedCertificate _ | CertificateChainBroken _ _ | SignatureSystemFailedOnInitial _ | NonzeroTurnoverOnInitial _
  | NonstandardTypeOnInitial _ | InvalidChainingOnInitial _ | InvalidChainingOnClusterInitial _ | NoCertificateGiven
  | ChangingRegisterId _ | ChangingSystemType _ | DecreasingDate _ | DuplicateReceiptId _
  | MalformedDEP | DEPParseError | MalformedDEPElement | MissingDEPElement | DuplicateDEPElement | MalformedDEPCertificate => true
  | _ => false
  end.

(** ValueError and its subclasses *)
Definition value_error (e : exn) : bool :=
  match e with
  | PyValueError | PyBinasciiError | PyUnicodeEncodeError | PyUnicodeDecodeError => true
  | _ => false
  end.

(** ** DEPs *)

(** What is displayed of a group, rktool.py:625-656: the key IDs of certificate and
    chain, and the IDs of the receipts *)
Record group_node : Type := GroupNode { n_cert : option str; n_chain : list str; n_receipts : list str }.
Definition group_display (w : world) (g : dgroup) : result group_node :=
  do ids <- mapM (fun cr => do jws <- expandDEPReceipt cr; do rp <- fromJWSString w jws; Ok (r_receiptId (fst rp))) (g_recs g);
  Ok (GroupNode (option_map (fun c => numSerialToKeyId (w_serial w c)) (g_cert g))
        (map (fun c => numSerialToKeyId (w_serial w c)) (g_chain g)) ids).

(** rktool.py:759-782 loadDEPCb and 620-669 updateDEPDisplay for the contents of a
    file: the groups of the DEP and what is displayed of them. The parser is asked for
    one group per chunk (lines 765-768). A DEP that cannot be displayed is not kept. *)
Definition load_dep (w : world) (file : json) : shown (list dgroup * list group_node) :=
  let s := parse_dict w 1 (load file) 0 in
  match show (fun e => dep_exception_class e || value_error e)
          (do _x <- finished s; mapM (fun c : chunk => index c 0) (fst s)) with
  | Done dep => show receipt_exception (do t <- mapM (group_display w) dep; Ok (dep, t))
  | Displayed e => Displayed e
  | Lost e => Lost e
  end.

(** rktool.py:685-693: the key as entered. All exceptions are caught. *)
Definition entered_key (text : str) : result (option bytes) :=
  match text with
  | [] => Ok None
  | _ => do b <- utf8_encode text; do k <- b64decode b; Ok (Some k)
  end.

(** rktool.py:569, 576, 583 *)
Definition task_exception (e : exn) : bool := receipt_exception e || dep_exception_class e.

(** rktool.py:561-570 verifyDEP_prepare_Task. Verifiers are numbered because they are
    compared by identity when the work is distributed. *)
Definition numbered (gs : list vgroup) : list (list bytes * nat) := combine (map fst gs) (List.seq 0 (List.length gs)).
Definition with_verifiers (gs : list vgroup) (p : list bytes * nat) : vgroup :=
  (fst p, nth (snd p) (map snd gs) (fromKeyStore [])).
Definition prepare_task (w : world) (nprocs : nat) (dep : list dgroup) (ks : keystore) (key : option bytes)
  : result (list (list vgroup * regstate)) :=
  do gs <- packageChunkWithVerifiers w ks dep;
  do pkgs <- balanceGroupsWithVerifiers (numbered gs) nprocs;
  predict w key new_register (map (map (with_verifiers gs)) pkgs).

(** rktool.py:572-577 verifyDEP_main_Task. There are at most as many packages as
    workers, so each is pickled for itself; the used IDs start empty. *)
Definition main_task (w : world) (key : option bytes) (a : list vgroup * regstate) : shown used :=
  show task_exception (do ru <- verifyGroupsWithVerifiers w (fst a) key None (snd a) (used_new B_unique); Ok (snd ru)).

(** map_async fails as a whole if one call raises an exception. *)
Fixpoint lost_in {A} (l : list (shown A)) : option exn :=
  match l with
  | [] => None
  | Lost e :: _ => Some e
  | _ :: r => lost_in r
  end.

(** rktool.py:717-733 verifyDEP_main_Cb: the first exception, or all used IDs *)
Fixpoint main_results {A} (l : list (shown A)) : shown (list A) :=
  match l with
  | [] => Done []
  | Done a :: r =>
      match main_results r with
      | Done rest => Done (a :: rest)
      | x => x
      end
  | Displayed e :: _ => Displayed e
  | Lost e :: _ => Lost e
  end.

(** rktool.py:680-748 verify: the DEP is reported as valid ([Done]), or an exception is
    displayed, or the verification does not end. *)
Definition verify_button (w : world) (nprocs : nat) (dep : list dgroup) (ks : keystore) (text : str) : shown unit :=
  match entered_key text with
  | Err e => Displayed e
  | Ok key =>
      match show task_exception (prepare_task w nprocs dep ks key) with
      | Displayed e => Displayed e
      | Lost e => Lost e
      | Done args =>
          let results := map (main_task w key) args in
          match lost_in results with
          | Some e => Lost e
          | None =>
              match main_results results with
              | Displayed e => Displayed e
              | Lost e => Lost e
              | Done ids => show task_exception (do _u <- used_merge w (used_new B_unique) ids; Ok tt)
              end
          end
      end
  end.

(** rktool.py:600-613 viewReceipt of a receipt of the displayed DEP. The parser's
    receipts are bytes (librksv/depparser.py:333-343). They are not decoded here: in
    Python 3 librksv/receipt.py calls their split() with a text, which is a TypeError;
    in Python 2 there is no difference for ASCII, others are not modelled. *)
Definition view_dep_receipt (w : world) (py : pygen) (cr : bytes) : shown (receipt * str) :=
  show receipt_exception
    match py with
    | Py3 => Err PyTypeError
    | Py2 => do jws <- expandDEPReceipt cr; fromJWSString w jws
    end.

(** ** Receipts *)

(** rktool.py:529-559 viewReceipt: the receipt that is displayed, for the four types of
    input. [fetch] is what getBasicCodeFromURL returns; PyException stands for the
    RequestException. CSV is none of the types. *)
Definition view_receipt (w : world) (py : pygen) (fetch : str -> result str) (f : format) (s : str) : option (shown (receipt * str)) :=
  let caught e := receipt_exception e || match e with PyException => true | _ => false end in
  match f with
  | F_jws => Some (show caught (fromJWSString w s))
  | F_qr => Some (show caught (fromBasicCode w s))
  | F_ocr => Some (show caught (fromOCRCode w py s))
  | F_url =>
      Some (show caught
        (let urlHash := getURLHashFromURL s in
         do code <- fetch s;
         do rp <- fromBasicCode w code;
         check known_alg (snd rp) else UnknownAlgorithm (r_receiptId (fst rp));
         do _x <- verifyURLHashOpt w (fst rp) (snd rp) urlHash;
         Ok rp))
  | F_csv => None
  end.

(** rktool.py:248-254 verifyReceiptTask and 354-364: "Valid Signature" or an exception *)
Definition verify_receipt_task (w : world) (ks : keystore) (rp : receipt * str) : shown unit :=
  show receipt_exception (do _x <- verify w (fromKeyStore ks) (fst rp) (snd rp); Ok tt).

(** ** Key stores *)

(** rktool.py:933-952 importKeyStoreCb: the key store afterwards and how it ended *)
Definition import_store (w : world) (ks : keystore) (file : json) : keystore * shown unit :=
  match readStoreFromJson w (load file) with
  | Ok ks' => (ks', Done tt)
  | Err e => (ks, if value_error e || match e with PyKeyError => true | _ => false end then Displayed e else Lost e)
  end.

(** rktool.py:954-966 exportKeyStoreCb: the file written *)
Definition export_store (w : world) (ks : keystore) : json := writeStoreToJson w ks None.

(** rktool.py:595-598 addCert: the button of a displayed certificate *)
Definition add_cert (w : world) (ks : keystore) (c : cert) : keystore :=
  putKey ks (numSerialToKeyId (w_serial w c)) (w_cert_pubkey w c) (Some c).

(** rktool.py:859-861 delKey, 893-901 addPubKeyCbId, 903-916 addCertCb: the key store
    afterwards and how it ended. *)
Definition del_key (ks : keystore) (i : str) : keystore := delKey ks i.
Definition add_pem_key (w : world) (ks : keystore) (i pem : str) : keystore * shown unit :=
  match putPEMKey w ks i pem with
  | Ok ks' => (ks', Done tt)
  | Err e => (ks, if value_error e then Displayed e else Lost e)
  end.
Definition add_pem_cert (w : world) (ks : keystore) (pem : str) : keystore * shown unit :=
  match putPEMCert w ks pem with
  | Ok ks' => (ks', Done tt)
  | Err e => (ks, if value_error e then Displayed e else Lost e)
  end.

(** What a user does with the key store: rktool.py:595-598, 856-858, 893-952 *)
Inductive store_action : Type :=
| A_import (file : json)
| A_cert (pem : str)
| A_key (i pem : str)
| A_button (c : cert)
| A_delete (i : str).
Definition store_act (w : world) (ks : keystore) (a : store_action) : keystore * shown unit :=
  match a with
  | A_import file => import_store w ks file
  | A_cert pem => add_pem_cert w ks pem
  | A_key i pem => add_pem_key w ks i pem
  | A_button c => (add_cert w ks c, Done tt)
  | A_delete i => (del_key ks i, Done tt)
  end.
Definition store_acts (w : world) (ks : keystore) (l : list store_action) : keystore :=
  fold_left (fun ks a => fst (store_act w ks a)) l ks.
