(** C70: the view of a receipt in the graphical program *)
From Coq Require Import Floats.SpecFloat.
From Verif Require Import PyBase World Codec PyFloat PyTime Receipt Json KeyStore JsonText StateCli ReceiptCli SpecReceiptCli Gui View SpecReceipt ReceiptFacts SpecDep SpecCluster SpecAmount SpecCounter SpecGui
  SpecView ViewFacts ViewRepr ExampleWorld ExampleReceipts ExampleDep ExampleGui ExampleView ExampleReceiptCli.
Open Scope N_scope.

Theorem C70_opened w fr r text : hash_ok w -> aes_ok w -> prints fr -> reads w text r ->
  forall valid, exists st err, open_view w fr r (lit "R1") valid = Ok (st, err)
  /\ faithful w r st /\ v_key st = None
  /\ (v_button st = B_valid <-> ~ unsigned r /\ valid = true)
  /\ (err = Some (UnsignedNullReceipt (r_receiptId r)) \/ err = None)
  /\ (err <> None <-> unsigned r /\ standard r /\ zero r).
Proof. exact (opened w fr r text). Qed.
Print Assumptions C70_opened.

Example C70_opened_example : hash_ok toy_world /\ aes_ok toy_world /\ prints exact_repr
  /\ reads toy_world ex_t4 ex_v4 /\ open_view toy_world exact_repr ex_v4 (lit "R1") false = Ok (ex_view, None)
  /\ printed_amounts toy_world ex_v4 [200; 0; 0; 0; 0]%Z /\ Forall moderate [200; 0; 0; 0; 0]%Z
  /\ reads toy_world ex_null ex_null_view
  /\ exists st, open_view toy_world exact_repr ex_null_view (lit "R1") true = Ok (st, Some (UnsignedNullReceipt (lit "2"))) /\ v_button st = B_none.
Proof.
  exact (conj toy_hash_ok (conj toy_aes_ok (conj exact_prints (conj ex_v4_read (conj (proj1 ex_view_open) (conj (proj1 ex_v4_amounts) (conj (proj2 ex_v4_amounts) ex_null_open))))))).
Qed.

Theorem C70_viewed w fr py fetch f s r alg : hash_ok w -> aes_ok w -> prints fr -> plain_format f -> encodable s ->
  view_receipt w py fetch f s = Some (Done (r, alg)) ->
  alg = lit "R1" /\ exists t st err, reads w t r /\ open_view w fr r alg false = Ok (st, err) /\ faithful w r st.
Proof. exact (viewed w fr py fetch f s r alg). Qed.
Print Assumptions C70_viewed.

Example C70_viewed_example : plain_format F_jws /\ encodable ex_t2
  /\ exists rp, view_receipt toy_world Py3 ex_offline F_jws ex_t2 = Some (Done rp).
Proof. split; [exact I|]. destruct ex_viewed_jws as (E & rp & V & _). split; [exact E|]. now exists rp. Qed.

Theorem C70_typed w fr r text : hash_ok w -> aes_ok w -> prints fr -> reads w text r ->
  forall st t, faithful w r st -> v_decrypt st = true -> t <> [] ->
  (forall k, key_text t k -> exists st', view_act w fr r (lit "R1") st (V_type t) = (st', Done tt)
     /\ faithful w r st' /\ v_key st' = Some k /\ v_button st' = v_button st)
  /\ ((forall k, ~ key_text t k) -> exists st' e, view_act w fr r (lit "R1") st (V_type t) = (st', Displayed e)
     /\ faithful w r st' /\ v_rows st' = v_rows st /\ v_key st' = None /\ v_button st' = v_button st).
Proof. exact (typed w fr r text). Qed.
Print Assumptions C70_typed.

Example C70_typed_example : faithful toy_world ex_v4 ex_view /\ v_decrypt ex_view = true /\ key_text ex_key_text ex_key
  /\ shows_counter toy_world ex_key ex_v4 350 /\ moderate 350 /\ forall k, ~ key_text (lit "AAAA") k.
Proof.
  exact (conj ex_view_faithful (conj (proj1 (proj2 ex_view_open)) (conj ex_key_typed (conj (proj1 ex_v4_counter) (conj (proj2 ex_v4_counter) ex_key_short))))).
Qed.

Theorem C70_verified w fr r text : reads w text r ->
  forall st ks, v_button st = B_verify -> ~ unsigned r ->
  (signed_in w ks r -> view_act w fr r (lit "R1") st (V_verify ks) = (View (v_rows st) (v_key st) (v_input st) (v_decrypt st) B_valid, Done tt))
  /\ (~ signed_in w ks r -> exists e, view_act w fr r (lit "R1") st (V_verify ks) = (st, Displayed e)).
Proof. exact (verified w fr r text). Qed.
Print Assumptions C70_verified.

Example C70_verified_example : v_button ex_view = B_verify /\ ~ unsigned ex_v4
  /\ view_act toy_world exact_repr ex_v4 (lit "R1") ex_view (V_verify ex_ks) = (View (v_rows ex_view) None [] true B_valid, Done tt)
  /\ view_act toy_world exact_repr ex_v4 (lit "R1") ex_view (V_verify []) = (ex_view, Displayed (NoPublicKey (lit "4"))).
Proof. exact (conj (proj2 (proj2 ex_view_open)) (conj ex_v4_signed ex_view_verified)). Qed.

Theorem C70_first w fr r text : hash_ok w -> aes_ok w -> prints fr -> reads w text r ->
  forall st key, faithful w r st -> v_key st = None ->
  exists st' v, first_display w fr r (lit "R1") st key = (st', v) /\ ends v /\ faithful w r st' /\ v_button st' = v_button st
    /\ (forall k, v_key st' = Some k <-> key_text key k)
    /\ (v = Done tt <-> key = [] \/ exists k, key_text key k).
Proof. exact (first_key w fr r text). Qed.
Print Assumptions C70_first.

(** A key file that is chosen gives the key it contains, and a message is displayed if it
    contains none, unless it says so. *)
Theorem C70_loaded w fr r text : hash_ok w -> aes_ok w -> prints fr -> reads w text r ->
  forall st f, faithful w r st -> v_decrypt st = true -> object_file (V_load f) ->
  exists st' v, view_act w fr r (lit "R1") st (V_load f) = (st', v) /\ ends v /\ faithful w r st' /\ v_button st' = v_button st
    /\ (forall k, v_key st' = Some k <-> gives_key (V_load f) k)
    /\ (v = Done tt <-> (exists k, gives_key (V_load f) k) \/ gives_none f).
Proof. exact (loaded_view w fr r text). Qed.
Print Assumptions C70_loaded.

Example C70_loaded_example : faithful toy_world ex_v4 ex_view /\ v_decrypt ex_view = true
  /\ object_file (V_load (K_json (lit "{""base64AESKey"": null}"))) /\ gives_none (K_json (lit "{""base64AESKey"": null}")) /\ gives_key (V_load (K_text ex_key_text)) ex_key.
Proof. exact (conj ex_view_faithful (conj (proj1 (proj2 ex_view_open)) (conj (proj1 ex_null_file) (conj (proj2 ex_null_file) ex_key_typed)))). Qed.

Theorem C70_actions w fr r text : hash_ok w -> aes_ok w -> prints fr -> reads w text r ->
  forall l st, faithful w r st -> Forall object_file l ->
  exists st', view_acts w fr r (lit "R1") st l = (st', Done tt) /\ faithful w r st'
    /\ (forall k, v_key st' = Some k -> v_key st = Some k \/ exists a, In a l /\ gives_key a k)
    /\ (v_button st' = B_valid -> v_button st = B_valid \/ exists ks, In (V_verify ks) l /\ signed_in w ks r).
Proof. exact (acted w fr r text). Qed.
Print Assumptions C70_actions.

Example C70_actions_example : faithful toy_world ex_v4 ex_view /\ Forall object_file ex_view_acts
  /\ exists st', view_acts toy_world exact_repr ex_v4 (lit "R1") ex_view ex_view_acts = (st', Done tt)
  /\ v_key st' = Some ex_key /\ v_button st' = B_valid.
Proof. exact (conj ex_view_faithful (conj ex_view_acts_files ex_view_acted)). Qed.

(** Counters beyond 10^14 cents may be displayed wrongly. *)
Theorem C70_large_refuted : exists w t1 r1 t2 r2 k z, reads w t1 r1 /\ reads w t2 r2 /\ shows_counter w k r1 z /\ shows_counter w k r2 (z + 1)
  /\ forall fr, exists s rows1 rows2, view_rows w fr r1 (lit "R1") (Some k) = Ok rows1 /\ view_rows w fr r2 (lit "R1") (Some k) = Ok rows2
     /\ nth_error rows1 9 = Some s /\ nth_error rows2 9 = Some s.
Proof. exact view_large. Qed.
Print Assumptions C70_large_refuted.

(** A key file with a JSON text that is no object ends the program. *)
Theorem C70_array_refuted : exists s, (exists l, readJsonStream s = Some (JList l))
  /\ forall w fr r alg st, v_decrypt st = true -> view_act w fr r alg st (V_load (K_json s)) = (st, Lost PyTypeError).
Proof. exact view_array. Qed.
Print Assumptions C70_array_refuted.

(** Years before 1000 are displayed in a form that is not that of receipts. *)
Theorem C70_year_refuted : exists w t r, reads w t r /\ forall fr, exists s rows, view_rows w fr r (lit "R1") None = Ok rows
  /\ nth_error rows 3 = Some s /\ forall d, ~ time_text w s d.
Proof. exact view_old. Qed.
Print Assumptions C70_year_refuted.
