(** Exceptions of verification in the toy world. *)
From Verif Require Import PyBase World Codec PyFloat Algo Receipt Json KeyStore State Verify SpecReceipt ReceiptFacts SpecDep SpecCluster SpecDoc SpecClean AcceptFacts
  VerifyFacts CleanFacts ExampleWorld ExampleReceipts ExampleDep.
Open Scope N_scope.
Open Scope py_scope.

(** An amount of 310 digits, which is infinite as a floating point number; and one
    whose counterpart has the opposite sign *)
Definition ex_huge : str := repeat 57 310 ++ lit ",00".
Definition ex_t2_huge := Eval vm_compute in
  ex_signed (ex_rec (lit "2") (lit "2017-01-01T08:00:00") ex_huge (ex_tc (lit "2") 100) ex_t1).
Definition ex_t2_nan := Eval vm_compute in
  ex_signed (Fields (lit "AT1") (lit "REG-1") (lit "2") (lit "2017-01-01T08:00:00") ex_huge (45 :: ex_huge) (lit "0,00") (lit "0,00") (lit "0,00")
    (ex_tc (lit "2") 100) (lit "5a") (ex_chain_to ex_t1)).
Definition ex_dep_huge : json := ex_dep_of [ex_group ex_cert_text [] [ex_t1; ex_t2_huge]].
Definition ex_dep_nan : json := ex_dep_of [ex_group ex_cert_text [] [ex_t1; ex_t2_nan]].

Lemma ex_dep_of_texts l : receipts_are_texts (ex_dep_of [ex_group ex_cert_text [] l]).
Proof.
  intros d js g jr Ed Eg Ig Er. injection Ed as <-. cbn in Eg. injection Eg as <-. destruct Ig as [Ig|[]]. injection Ig as <-.
  exists l. cbn in Er. congruence.
Qed.

Lemma ascii_text_encodes s : forallb (fun c => c <? 128) s = true -> exists b, utf8_encode s = Ok b.
Proof. intros H. exists s. apply CodecFacts.utf8_encode_ascii. apply Forall_forall. intros x Hx. apply N.ltb_lt. rewrite forallb_forall in H. now apply H. Qed.

(** Texts of such documents *)
Lemma ex_dep_of_encodes l : forallb (forallb (fun c => c <? 128)) l = true -> texts_encode (ex_dep_of [ex_group ex_cert_text [] l]).
Proof.
  intros H s T. inversion T as [| |? ? ? ? I T1]; subst. destruct I as [I|[]]. injection I as <- <-.
  inversion T1 as [|? ? ? I2 T2|]; subst. destruct I2 as [<-|[]].
  inversion T2 as [| |? ? ? ? I3 T3]; subst. destruct I3 as [I3|[I3|[I3|[]]]]; injection I3 as <- <-.
  - inversion T3; subst. apply ascii_text_encodes. reflexivity.
  - inversion T3 as [|? ? ? I4 T4|]; subst. destruct I4.
  - inversion T3 as [|? ? ? I4 T4|]; subst. apply in_map_iff in I4 as (t & <- & I4). inversion T4; subst.
    apply ascii_text_encodes. rewrite forallb_forall in H. now apply H.
Qed.

Lemma ex_start_encodes : state_encodes ex_start.
Proof. constructor. Qed.

Lemma huge_amounts : exists w huge nan ks key c, receipts_are_texts huge /\ texts_encode huge /\ receipts_are_texts nan /\ texts_encode nan
  /\ snd (verifyDEP w huge ks None c None) = None
  /\ snd (verifyDEP w huge ks (Some key) c None) = Some PyOverflowError
  /\ snd (verifyDEP w nan ks (Some key) c None) = Some PyValueError.
Proof.
  exists toy_world, ex_dep_huge, ex_dep_nan, ex_ks, ex_key, ex_start.
  split; [apply ex_dep_of_texts|]. split; [apply ex_dep_of_encodes; vm_compute; reflexivity|].
  split; [apply ex_dep_of_texts|]. split; [apply ex_dep_of_encodes; vm_compute; reflexivity|].
  split; [vm_compute; reflexivity|]. split; vm_compute; reflexivity.
Qed.

Lemma ex_rejected : receipts_are_texts ex_dep2 /\ texts_encode ex_dep2 /\ state_encodes ex_start
  /\ exists c', verifyDEP toy_world ex_dep2 ex_ks (Some ex_key) ex_start None = (c', Some (InvalidChainingOnInitial (lit "5"))).
Proof.
  split; [apply ex_dep_of_texts|]. split; [apply ex_dep_of_encodes; vm_compute; reflexivity|]. split; [exact ex_start_encodes|].
  eexists. vm_compute. reflexivity.
Qed.

Definition shortb (t : str) : bool :=
  match fromJWSString toy_world t with
  | Ok (r, _) => let f := r_fields r in forallb (fun a : str => (List.length a <=? 15)%nat) [f_a f; f_b f; f_c f; f_d f; f_e f]
  | Err _ => true
  end.
Lemma ex_short : short_amounts toy_world ex_dep2.
Proof.
  intros s r T R. assert (shortb s = true) as B.
  { inversion T as [| |? ? ? ? I T1]; subst. destruct I as [I|[]]. injection I as <- <-.
    inversion T1 as [|? ? ? I2 T2|]; subst. destruct I2 as [<-|[]].
    inversion T2 as [| |? ? ? ? I3 T3]; subst. destruct I3 as [I3|[I3|[I3|[]]]]; injection I3 as <- <-.
    - inversion T3; subst. vm_compute. reflexivity.
    - inversion T3 as [|? ? ? I4 T4|]; subst. destruct I4.
    - inversion T3 as [|? ? ? I4 T4|]; subst. repeat (destruct I4 as [<-|I4]; [inversion T4; subst; vm_compute; reflexivity|]). destruct I4. }
  assert (fromJWSString toy_world s = Ok (r, lit "R1")) as E by now apply parse_reads. unfold shortb in B. rewrite E in B. cbv zeta in B.
  cbv zeta. apply Forall_forall. intros a Ha. rewrite forallb_forall in B. apply Nat.leb_le. now apply B.
Qed.
