(** Properties C30 and C14: the order of receipt IDs and of points in time. *)
From Verif Require Import PyBase World Codec PyTime State SpecDep SpecCluster SpecNatural NaturalFacts ExampleWorld.
Open Scope N_scope.

(** ** C30 Natural order of IDs *)

(** Every ID consists of texts and numbers in exactly one way. *)
Theorem C30_pieces : forall id, exists t0 rest, pieces id t0 rest
  /\ (forall t0' rest', pieces id t0' rest' -> t0' = t0 /\ rest' = rest)
  /\ (forall w, Forall (fun c => c < 128) id -> plain_texts w t0 rest).
Proof. exact pieces_total. Qed.
Print Assumptions C30_pieces.

(** The first difference decides, numbers are compared by value and texts in lower
    case. *)
Theorem C30_natural : forall w a b ta ra tb rb,
  pieces a ta ra -> pieces b tb rb -> plain_texts w ta ra -> plain_texts w tb rb ->
  natural_lt w a b <-> first_difference value_before (values w ta ra) (values w tb rb).
Proof. exact natural_iff. Qed.
Print Assumptions C30_natural.

(** A new ID is accepted exactly if it comes after the largest one so far. *)
Theorem C30_check : forall w mi m id tm rm t0 rest,
  pieces m tm rm -> pieces id t0 rest -> plain_texts w tm rm -> plain_texts w t0 rest ->
  (first_difference value_before (values w tm rm) (values w t0 rest) -> used_check w (Natural mi (Some m)) id = Ok tt)
  /\ (~ first_difference value_before (values w tm rm) (values w t0 rest) ->
      used_check w (Natural mi (Some m)) id = Err (DuplicateReceiptId id)).
Proof. exact natural_check. Qed.
Print Assumptions C30_check.

Example C30_natural_ex :
  pieces (lit "Re9-x") (lit "Re") [(lit "9", lit "-x")] /\ pieces (lit "re010") (lit "re") [(lit "010", lit "")]
  /\ plain_texts toy_world (lit "Re") [(lit "9", lit "-x")] /\ plain_texts toy_world (lit "re") [(lit "010", lit "")]
  /\ first_difference value_before (values toy_world (lit "Re") [(lit "9", lit "-x")]) (values toy_world (lit "re") [(lit "010", lit "")])
  /\ used_check toy_world (Natural None (Some (lit "Re9-x"))) (lit "re010") = Ok tt
  /\ used_check toy_world (Natural None (Some (lit "re010"))) (lit "RE10") = Err (DuplicateReceiptId (lit "RE10")).
Proof.
  assert (forall id t0 n t, id = t0 ++ n ++ t -> no_digits t0 -> n <> [] -> Forall ascii_digit n -> no_digits t -> pieces id t0 [(n, t)]) as P.
  { intros id t0 n t -> N0 E D N1. split; [cbn [flat_map fst snd]; now rewrite app_nil_r|]. split; [exact N0|].
    split; [constructor; [now split|constructor]|]. intros [|? [|? ?]] nt nt' l' X; discriminate. }
  assert (forall c, (c <? 48) || (57 <? c) = true -> ~ ascii_digit c) as N.
  { unfold ascii_digit. intros c H [A B]. apply N.ltb_ge in A, B. rewrite A, B in H. discriminate. }
  assert (forall c, (48 <=? c) && (c <=? 57) = true -> ascii_digit c) as D.
  { unfold ascii_digit. intros c H. apply andb_true_iff in H as [A B]. apply N.leb_le in A, B. now split. }
  split; [|split; [|split; [|split; [|split; [|split]]]]].
  - apply P; [reflexivity| |discriminate| |];
      repeat first [apply Forall_nil|apply Forall_cons; [first [apply N; reflexivity|apply D; reflexivity]|]].
  - apply P; [reflexivity| |discriminate| |];
      repeat first [apply Forall_nil|apply Forall_cons; [first [apply N; reflexivity|apply D; reflexivity]|]].
  - repeat first [apply Forall_nil|apply Forall_cons; [reflexivity|]].
  - repeat first [apply Forall_nil|apply Forall_cons; [reflexivity|]].
  - exists [VText (lit "re")]. right. exists (VNumber 9), (VNumber 10), [VText (lit "-x")], [VText []].
    split; [reflexivity|]. split; [reflexivity|]. reflexivity.
  - vm_compute. reflexivity.
  - vm_compute. reflexivity.
Qed.

(** Digits of other scripts are a different matter: an ID that is a superscript two ends
    verification with a ValueError, and one that is an Arabic-Indic three cannot even be
    compared with an ordinary one. *)
Theorem C30_foreign : forall w mi,
  (u_isdigit w 178 = true -> u_decimal w 178 = None -> u_isspace w 178 = false ->
   used_check w (Natural mi (Some (lit "1"))) [178] = Err PyValueError)
  /\ (u_isdigit w 1635 = true -> u_decimal w 1635 = Some 3 -> u_isspace w 1635 = false ->
   used_check w (Natural mi (Some (lit "1"))) [1635] = Err PyTypeError).
Proof. exact foreign_digits. Qed.
Print Assumptions C30_foreign.

(** So checks of IDs are not always answered. *)
Theorem C30_check_refuted : exists w u id, used_check w u id <> Ok tt /\ used_check w u id <> Err (DuplicateReceiptId id).
Proof.
  exists {| u_decimal := fun _ => None; u_isdigit := fun c => c =? 178; u_isalnum := u_isalnum toy_world; u_isspace := fun _ => false;
    u_upper := u_upper toy_world; u_lower := u_lower toy_world; w_sha256 := w_sha256 toy_world; w_aes := w_aes toy_world;
    w_es256_verify := w_es256_verify toy_world; w_es256_sign := w_es256_sign toy_world; w_load_cert := w_load_cert toy_world;
    w_load_pubkey := w_load_pubkey toy_world; w_serial := w_serial toy_world; w_cert_pubkey := w_cert_pubkey toy_world;
    w_cert_signed_by := w_cert_signed_by toy_world; w_cert_pem := w_cert_pem toy_world; w_pubkey_pem := w_pubkey_pem toy_world |},
    (Natural (Some (lit "1")) (Some (lit "1"))), [178].
  split; vm_compute; discriminate.
Qed.
Print Assumptions C30_check_refuted.

(** ** C14 Time *)

(** Year, month, day, hour, minute and second decide in this order. *)
Theorem C14_time : forall a b, not_before a b <-> ~ earlier a b.
Proof. exact not_before_iff. Qed.
Print Assumptions C14_time.

Example C14_time_ex :
  (exists a b, strptime toy_world (lit "2016-12-31T23:59:59") = Some a /\ strptime toy_world (lit "2017-01-01T00:00:00") = Some b
    /\ earlier a b /\ not_before b a /\ not_before a a).
Proof. eexists _, _. split; [vm_compute; reflexivity|]. split; [vm_compute; reflexivity|]. split; [left; reflexivity|]. split; vm_compute; reflexivity. Qed.
