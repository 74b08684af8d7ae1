(** librksv/cashreg.py:81-99, 126-191: receipts with overrides, as the test
    specifications use them to make faulty receipts. *)
From Coq Require Import Floats.SpecFloat.
From Verif Require Import PyBase World Codec PyFloat PyTime Algo Receipt DepExport CashReg.
Open Scope N_scope.
Open Scope py_scope.

(** The element "override" of an instruction: an optional value for each name the
    code looks at. Texts are texts, and numbers integers. Other names than these set
    attributes of the receipt object that nothing reads. "jwsOverride", which
    replaces the whole text, is left out; see OverrideText.v. *)
Record override : Type := Override {
  ov_zda : option str;          (* zda *)
  ov_register : option str;     (* registerId *)
  ov_id : option str;           (* receiptId *)
  ov_time : option str;         (* dateTime *)
  ov_a : option str; ov_b : option str; ov_c : option str; ov_d : option str; ov_e : option str;  (* sumA to sumE *)
  ov_tc : option str;           (* encTurnoverCounter *)
  ov_serial : option str;       (* certSerial *)
  ov_chain : option str;        (* previousChain *)
  ov_counter : option Z;        (* turnoverCounter *)
  ov_size : option nat;         (* turnoverCounterSize *)
  ov_prefix : option str;       (* algorithmPrefix *)
  ov_header : option str;       (* header *)
  ov_signature : option str     (* signature *)
}.
Definition no_override : override :=
  Override None None None None None None None None None None None None None None None None None.

(** [override.get(name, x)] *)
Definition given {A} (o : option A) (x : A) : A := match o with Some y => y | None => x end.

(** librksv/cashreg.py:84-94 MangledReceipt: the texts of the receipt; the values read
    from them remain. *)
Definition mangle (o : override) (r : receipt) : receipt :=
  Receipt (given (ov_zda o) (r_zda r)) (given (ov_register o) (r_registerId r)) (given (ov_id o) (r_receiptId r))
    (r_dateTime r) (given (ov_time o) (r_dateTimeStr r))
    (r_sumA r) (given (ov_a o) (r_sumAStr r)) (r_sumB r) (given (ov_b o) (r_sumBStr r)) (r_sumC r) (given (ov_c o) (r_sumCStr r))
    (r_sumD r) (given (ov_d o) (r_sumDStr r)) (r_sumE r) (given (ov_e o) (r_sumEStr r))
    (given (ov_tc o) (r_encTC r)) (given (ov_serial o) (r_certSerial r)) (given (ov_chain o) (r_previousChain r)) (r_sig r).

Definition with_size (g : cashreg) (n : nat) : cashreg := CashReg (cr_id g) (cr_last g) (cr_counter g) (cr_key g) n.

(** librksv/cashreg.py:147-177, see [complete] *)
Definition complete_over (w : world) (g : cashreg) (prefix : str) (o : override) (q : request) (rec : receipt) : result (receipt * str) :=
  do tc <- (if q_dummy q then Ok (lit "TRA")
            else if q_reversal q then Ok (lit "STO")
            else do _x <- raiseForKey (cr_key g);
                 r1_encrypt w (r_registerId rec) (r_receiptId rec) (cr_counter g) (cr_key g) (cr_size g));
  let rec := match ov_tc o with Some _ => rec | None => set_tc rec (b64encode tc) end in
  do pc <- r1_chain w (r_registerId rec) (cr_last g);
  let rec := match ov_chain o with Some _ => rec | None => set_previousChain rec (b64encode pc) end in
  do payload <- toPayloadString rec (given (ov_prefix o) prefix);
  do jws <- sys_sign w (q_sys q) payload;
  Ok (rec, jws).

(** librksv/cashreg.py:186-189 *)
Definition mangle_signature (o : override) (r : receipt) : receipt :=
  Receipt (r_zda r) (r_registerId r) (r_receiptId r) (r_dateTime r) (r_dateTimeStr r)
    (r_sumA r) (r_sumAStr r) (r_sumB r) (r_sumBStr r) (r_sumC r) (r_sumCStr r)
    (r_sumD r) (r_sumDStr r) (r_sumE r) (r_sumEStr r) (r_encTC r) (r_certSerial r) (r_previousChain r)
    (option_map (fun hs => (given (ov_header o) (fst hs), given (ov_signature o) (snd hs))) (r_sig r)).

(** librksv/cashreg.py:126-191 receipt, see [issue] *)
Definition issue_over (w : world) (g : cashreg) (prefix : str) (o : override) (q : request) : cashreg * result receipt :=
  match (check known_alg prefix else PyKeyError;
         mk_receipt w (sys_zda (q_sys q)) (cr_id g) (q_id q) (strftime (q_time q))
           (fmt_sum (q_a q)) (fmt_sum (q_b q)) (fmt_sum (q_c q)) (fmt_sum (q_d q)) (fmt_sum (q_e q))
           [] (sys_serial (q_sys q)) []) with
  | Err e => (g, Err e)
  | Ok rec =>
      let rec := mangle o rec in
      let g := with_size g (given (ov_size o) (cr_size g)) in
      match (if q_dummy q then Ok (cr_counter g)
             else do x <- request_cents q; Ok (cr_counter g + x)%Z) with
      | Err e => (g, Err e)
      | Ok c =>
          let g := with_counter g (given (ov_counter o) c) in
          match complete_over w g prefix o q rec with
          | Err e => (g, Err e)
          | Ok (rec, jws) => (with_last g jws, do rec <- sign_parts rec jws; Ok (mangle_signature o rec))
          end
      end
  end.

(** librksv/run_test.py:227-230 for the receipts of one register *)
Fixpoint issue_all_over (w : world) (g : cashreg) (qs : list (request * override)) : cashreg * result (list rtuple) :=
  match qs with
  | [] => (g, Ok [])
  | (q, o) :: r =>
      match issue_over w g (lit "R1") o q with
      | (g', Err e) => (g', Err e)
      | (g', Ok rec) =>
          let (g'', rest) := issue_all_over w g' r in
          (g'', do l <- rest; Ok ((rec, given (ov_prefix o) (lit "R1")) :: l))
      end
  end.
