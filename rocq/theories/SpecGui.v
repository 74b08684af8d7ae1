(** Specification of the graphical program. *)
From Verif Require Import PyBase World Codec Receipt Json KeyStore DepBase DepParser State Verify SpecReceipt ReceiptFacts SpecDep SpecCluster SpecChunks Gui.
Open Scope N_scope.

(** What is displayed of a group of a DEP: the serial numbers of certificate and chain
    in hexadecimal, without sign, and the receipts' IDs *)
Definition serial_text (w : world) (c : cert) : str := fmt_x (Z.abs (w_serial w c)).
Definition displays (w : world) (g : group) (n : group_node) : Prop :=
  n_cert n = option_map (serial_text w) (gr_cert g)
  /\ n_chain n = map (serial_text w) (gr_chain g)
  /\ Forall2 (fun t i => exists r, reads w t r /\ i = r_receiptId r) (gr_texts g) (n_receipts n).

(** The AES key typed by the user: nothing, or base64 *)
Definition typed_key (text : str) (key : option bytes) : Prop :=
  (text = [] /\ key = None)
  \/ (text <> [] /\ exists b k, utf8_encode text = Ok b /\ b64decode b = Ok k /\ key = Some k).

(** An action ends for the user: it succeeds or a message is displayed. *)
Definition ends {A} (s : shown A) : Prop := forall e, s <> Lost e.

(** No amount of the receipts of a DEP has more than 15 characters. *)
Definition short_groups (w : world) (dep : list dgroup) : Prop :=
  forall g b t r, In g dep -> In b (g_recs g) -> utf8_encode t = Ok b -> reads w t r ->
  let f := r_fields r in Forall (fun a => (List.length a <= 15)%nat) [f_a f; f_b f; f_c f; f_d f; f_e f].

(** The certificates of buttons are those of a DEP, which were loaded from PEM texts. *)
Definition loaded_button (w : world) (a : store_action) : Prop :=
  match a with A_button c => exists t, w_load_cert w t = Some c | _ => True end.
