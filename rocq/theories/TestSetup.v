(** librksv/run_test.py:63-145: the keys, certificates and signature devices of a test,
    and librksv/test/test_verify.py:274-301: a test as a whole. *)
From Verif Require Import PyBase World Codec PyFloat Receipt Pem Json KeyStore State DepParser Verify DepExport CashReg RunTest TestVerify.
Open Scope N_scope.
Open Scope py_scope.

(** The certificates [runTest] makes for a device: that of a closed system, those of
    the chain, which are numbered, and a false root. *)
Inductive purpose : Type := P_self | P_chain (j : nat) | P_fake.

(** What the random numbers and the cryptographic library yield, for each device and
    purpose. *)
Record maker : Type := Maker {
  mk_priv : str -> result privkey;                       (* utils.loadPrivKey, librksv/utils.py:145-151 *)
  mk_pair : nat -> purpose -> privkey * pubkey;          (* utils.makeES256Keypair, librksv/utils.py:273-280 *)
  mk_serial : nat -> purpose -> Z;                       (* utils.makeCertSerial, librksv/utils.py:282-287 *)
  mk_zda : nat -> Z;                                     (* random.randint(1, 999), librksv/run_test.py:136 *)
  (* utils.makeSignedCert, librksv/utils.py:289-329: public key, common name, days,
     serial number, private key and certificate that sign *)
  mk_cert : nat -> purpose -> pubkey -> str -> Z -> Z -> privkey -> option cert -> result cert
}.

(** The elements of a test specification that [runTest] reads. Optional elements may be
    missing; those that are needed are there and have the right type. *)
Record tspec : Type := TSpec {
  ts_number : Z;                        (* numberOfSignatureDevices *)
  ts_aes : str;                         (* base64AesKey *)
  ts_size : option nat;                 (* turnoverCounterSize *)
  ts_id : str;                          (* cashBoxId *)
  ts_company : str;                     (* companyID *)
  ts_multi : bool;                      (* multipleGroups *)
  ts_decimal : bool;                    (* decimalSerial *)
  ts_public : bool;                     (* includePublicKey *)
  ts_length : option (list Z);          (* certChainLength *)
  ts_nosign : option (list bool);       (* omitSignCert *)
  ts_noroot : option (list bool);       (* omitRootCert *)
  ts_failure : option (list Z);         (* certChainFailure *)
  ts_collision : option (list bool);    (* certChainSerialCollision *)
  ts_instrs : list instr                (* cashBoxInstructionList *)
}.

(** [spec.get(k, [d] * n)], librksv/run_test.py:79-88 *)
Definition elements_or {A} (o : option (list A)) (d : A) (n : Z) : list A :=
  match o with Some l => l | None => repeat d (Z.to_nat n) end.

(** The key ID of a device, librksv/run_test.py:98 and 133 *)
Definition device_kid (company : str) (i : nat) : str := company ++ lit "-K" ++ fmt_d (Z.of_nat i).

(** librksv/run_test.py:106-114: certificates are put in front of [top :: below];
    [num] is the serial number of the last one. *)
Fixpoint make_chain (m : maker) (failure : list Z) (i j : nat) (priv : privkey) (top : cert) (below : list cert) (num : Z)
  : result (privkey * (cert * list cert) * Z) :=
  match j with
  | O => Ok (priv, (top, below), num)
  | S j' =>
      let (s, p) := mk_pair m i (P_chain j) in
      let num := mk_serial m i (P_chain j) in
      do f <- item_at failure i;
      let signer := if (Z.of_nat j =? f)%Z then s else priv in
      do c <- mk_cert m i (P_chain j) p
        (lit "intermediate " ++ fmt_d (Z.of_nat j) ++ lit " in " ++ fmt_d (Z.of_nat i)) 365 num signer (Some top);
      make_chain m failure i j' s c (top :: below) num
  end.

(** One iteration, librksv/run_test.py:93-145 *)
Definition make_device (w : world) (m : maker) (sp : tspec) (closed : bool) (i : nat) (mat : str * str) (ks : keystore)
  : result (device * keystore) :=
  let n := ts_number sp in
  do priv <- mk_priv m (snd mat);
  do made <-
    (if closed then
       let serial := device_kid (ts_company sp) i in
       do pub <- loadPubKey w (fst mat);
       do c <- mk_cert m i P_self pub serial 365 (mk_serial m i P_self) priv None;
       Ok (serial, priv, (c, []))
     else
       do c <- loadCert w (fst mat);
       do len <- item_at (elements_or (ts_length sp) 0%Z n) i;
       do ch <- make_chain m (elements_or (ts_failure sp) 0%Z n) i (Z.to_nat len) priv c [] (w_serial w c);
       let '(priv', certs, num) := ch in
       Ok ((if ts_decimal sp then fmt_d (Z.abs num) else numSerialToKeyId num), priv', certs));
  let '(serial, priv', (top, below)) := made in
  do ks1 <-
    (if negb closed || ts_multi sp then
       do omitted <- item_at (elements_or (ts_noroot sp) false n) i;
       if omitted then Ok ks else
       do collides <- item_at (elements_or (ts_collision sp) false n) i;
       do tl <-
         (if collides then
            let (s, p) := mk_pair m i P_fake in
            mk_cert m i P_fake p (lit "fake root " ++ fmt_d (Z.of_nat i)) 365 (w_serial w top) s None
          else Ok (last below top));
       putPEMCert w ks (addPEMCertHeaders (exportCertToPEM w tl))
     else Ok ks);
  let ks2 := if closed || ts_public sp then putKey ks1 (device_kid (ts_company sp) i) (w_cert_pubkey w top) None else ks1 in
  let zda := if closed then lit "AT0" else lit "AT" ++ fmt_d (mk_zda m i) in
  do nosign <- item_at (elements_or (ts_nosign sp) false n) i;
  Ok (Device zda serial priv' (if nosign : bool then None else Some top) (if nosign then [] else below), ks2).

Fixpoint make_devices (w : world) (m : maker) (sp : tspec) (closed : bool) (i : nat) (mats : list (str * str)) (ks : keystore)
  : result (list device * keystore) :=
  match mats with
  | [] => Ok ([], ks)
  | mat :: r =>
      do d <- make_device w m sp closed i mat ks;
      do ds <- make_devices w m sp closed (S i) r (snd d);
      Ok (fst d :: fst ds, snd ds)
  end.

(** librksv/utils.py:88-89 loadB64Key applied to an encoded text *)
Definition loadB64Key (s : str) : result bytes := do b <- utf8_encode s; b64decode b.

(** librksv/run_test.py:69-71 *)
Definition counter_size (sp : tspec) (tcSize : option nat) : nat :=
  match tcSize with
  | Some (S n) => S n
  | _ => match ts_size sp with Some n => n | None => 8%nat end
  end.

(** librksv/run_test.py:38-254 runTest: the DEPs and the container with the keys. The
    register of line 73 is made before the devices; it is made again by [runTest]. *)
Definition runTest_full (w : world) (m : maker) (sp : tspec) (keymat : list (str * str)) (closed : bool) (tcSize : option nat)
  : result (list json * json) :=
  check (Z.of_nat (List.length keymat) =? ts_number sp)%Z else PyException;
  do key <- loadB64Key (ts_aes sp);
  let size := counter_size sp tcSize in
  do _g <- new_cashreg (ts_id sp) None 0 key size;
  do made <- make_devices w m sp closed 0 keymat [];
  do deps <- runTest w (ts_id sp) key size (ts_multi sp) (fst made) (ts_instrs sp);
  Ok (deps, writeStoreToJson w (snd made) (Some (ts_aes sp))).

(** librksv/test/test_verify.py:118-119 with 124-230: the key and the key store are
    read again. *)
Definition verify_made (w : world) (verify : keystore -> bytes -> outcome) (sp : tspec) (cc : json) : outcome :=
  match loadB64Key (ts_aes sp) with
  | Err e => T_raised e
  | Ok key => match readStoreFromJson w cc with Err e => T_raised e | Ok ks => verify ks key end
  end.

(** librksv/test/test_verify.py:274-313 testVerify. The key material is the same for
    all devices. *)
Definition testVerify_full (w : world) (m : maker) (say : exn -> str) (sch : nat -> schedule) (random : nat -> nat) (x : expectation)
    (b : backend) (sp : tspec) (pub priv : str) (closed : bool) : result (tresult * option str) :=
  match runTest_full w m sp (repeat (pub, priv) (Z.to_nat (ts_number sp))) closed None with
  | Err e => Ok (R_ERROR, Some (say e))
  | Ok (deps, cc) =>
      do rn <- conclude say x (verify_made w (fun ks key => testVerify w ks key b deps) sp cc);
      do rp <- conclude say x (verify_made w (fun ks key => parse_deps w sch random ks (Some key) (new_cluster b) [] 0 deps) sp cc);
      if res_eqb (fst rn) (fst rp) && str_eqb (shown (snd rn)) (shown (snd rp)) then Ok rn
      else Ok ((match fst rn, fst rp with R_ERROR, _ | _, R_ERROR => R_ERROR | _, _ => R_FAIL end),
               Some (lit "Result mismatch: without parsing " ++ res_name (fst rn) ++ lit ":>" ++ shown (snd rn)
                       ++ lit "<, with parsing " ++ res_name (fst rp) ++ lit ":>" ++ shown (snd rp) ++ lit "<"))
  end.
