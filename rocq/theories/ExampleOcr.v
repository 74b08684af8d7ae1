(** OCR codes and CSV lines in the toy world. *)
From Coq Require Import Lia.
From Verif Require Import PyBase World Codec CodecFacts SpecCodec Receipt SpecReceipt ReceiptFacts SpecReading ReadingFacts SpecOcr OcrFacts ExampleWorld ExampleReading.
Open Scope N_scope.

Definition ex_ocr (alg tc chain g : str) : str :=
  join [c_us] [[]; alg ++ lit "-AT1"; lit "REG-1"; lit "1"; ex_time; lit "0,00"; lit "0,00"; lit "0,00"; lit "0,00"; lit "0,00"; tc; lit "5a"; chain; g].
Definition ex_ocr_good : str := ex_ocr (lit "R1") (lit "KRJEC===") (lit "AAAAAAAAAAAAA===") (lit "AAAAA===").
Definition ex_ocrs : list (str * (str -> exn)) :=
  [(lit "_R1-AT1", MalformedReceipt);
   (ex_ocr (lit "R1") (lit "VFJB") (lit "AAAAAAAAAAAAA===") (lit "AAAAA==="), MalformedReceipt);
   (ex_ocr (lit "R1") (lit "KRJEC===") (lit "AAAAAAAAA1AAA===") [228], MalformedReceipt);
   (ex_ocr (lit "R1") (lit "KRJEC===") (lit "AAAAAAAAAAAAA===") [228], fun _ => PyUnicodeEncodeError);
   (ex_ocr (lit "R1") (lit "KRJEC===") (lit "AAAAA===") (lit "AAAAA==="), fun _ => MalformedReceipt (lit "1"))].
Lemma ex_ocrs_fault : Forall (fun te => ocr_fault toy_world (fst te) (snd te (fst te))) ex_ocrs.
Proof. unfold ex_ocrs. repeat (apply Forall_cons; [|]); try apply Forall_nil; (apply ocr_diagnosis; [eexists; vm_compute; reflexivity|vm_compute; reflexivity]). Qed.

(** The digits of an OCR code may end in any bits *)
Lemma ex_base32 : base32 (lit "KRJEC===") (lit "TRA") /\ base32 (lit "KRJED===") (lit "TRA").
Proof. split; apply b32_spec; vm_compute; reflexivity. Qed.
Lemma ex_ocr_code : ocr_code ex_ocr_good (ex_code (lit "R1") (lit "AT1") (lit "5a") (lit "AAAA")).
Proof.
  exists [lit "R1-AT1"; lit "REG-1"; lit "1"; ex_time; lit "0,00"; lit "0,00"; lit "0,00"; lit "0,00"; lit "0,00"],
    (lit "KRJEC==="), (lit "5a"), (lit "AAAAAAAAAAAAA==="), (lit "AAAAA==="), (lit "TRA"), (repeat 0 8), (repeat 0 3).
  split; [split; [reflexivity|split; [reflexivity|]]|].
  - repeat (apply Forall_cons; [vm_compute; intuition discriminate|]). apply Forall_nil.
  - split; [apply ex_base32|]. split; [apply b32_spec; vm_compute; reflexivity|]. split; [apply b32_spec; vm_compute; reflexivity|vm_compute; reflexivity].
Qed.
Lemma ex_ocr_read : exists x, fromOCRCode toy_world Py2 ex_ocr_good = Ok x.
Proof. eexists. vm_compute. reflexivity. Qed.

Definition ex_csv : str := lit "R1-AT1; REG-1;1 ;" ++ ex_time ++ lit ";0,00;0,00;0,00;0,00; 0,00;VFJB;5a;AAAAAAAAAAA=;AAAA ".
Lemma ex_csv_code : csv_code toy_world ex_csv (ex_code (lit "R1") (lit "AT1") (lit "5a") (lit "AAAA")) /\ exists x, fromCSV toy_world ex_csv = Ok x.
Proof.
  split; [|eexists; vm_compute; reflexivity]. destruct (csv_reads toy_world ex_csv) as (qr & C & _ & U).
  enough (E : csv_code toy_world ex_csv (c_us :: join [c_us] (map (strip (char_isspace toy_world)) (split_char c_semi ex_csv)))) by exact E.
  exists (split_char c_semi ex_csv), (map (strip (char_isspace toy_world)) (split_char c_semi ex_csv)).
  split; [vm_compute; reflexivity|]. split; [discriminate|]. split.
  - apply Forall_forall. intros x Hx. vm_compute in Hx. repeat (destruct Hx as [<-|Hx]; [vm_compute; intuition discriminate|]). destruct Hx.
  - split; [|reflexivity]. clear. induction (split_char c_semi ex_csv) as [|x l IH]; cbn [map]; constructor; [now apply strip_spec|exact IH].
Qed.
Lemma ex_csv_fault : exists qr, csv_code toy_world (lit "R1-AT1;REG-1") qr /\ code_fault toy_world qr (MalformedReceipt (lit "_R1-AT1_REG-1")).
Proof. apply csv_diagnosis; [eexists; vm_compute; reflexivity|vm_compute; reflexivity]. Qed.

(** Findings *)
Lemma ex_other_text : exists w s t, (forall qr, csv_code w s qr -> forall alg f g, ~ code_parts qr alg f g) /\ fromCSV w s = Err (MalformedReceipt t) /\ t <> s.
Proof.
  exists toy_world, (lit "R1-AT1;REG-1"), (lit "_R1-AT1_REG-1"). split; [|split; [vm_compute; reflexivity|discriminate]].
  intros qr C alg f g (E & F & _). destruct (csv_reads toy_world (lit "R1-AT1;REG-1")) as (q & C' & E' & U).
  rewrite (U _ C) in E. clear C. destruct C' as (ps & ps' & Ep & N & Fp & T & ->).
  apply (f_equal (split_char c_semi)) in Ep. rewrite ListFacts.split_join in Ep by assumption. vm_compute in Ep. subst ps.
  inversion T as [|a b l l' T1 T2]; subst. inversion T2 as [|a' b' l l'' T3 T4]; subst. inversion T4; subst.
  apply strip_spec in T1, T3. vm_compute in T1, T3. subst b b'.
  apply (f_equal (split_char c_us)) in E. rewrite (ListFacts.split_join c_us (elements alg f ++ [g])) in E by (discriminate || assumption).
  vm_compute in E. discriminate E.
Qed.
Lemma ex_underscores : exists w s x, ~ In c_semi s /\ fromCSV w s = Ok x.
Proof.
  exists toy_world, (tl (ex_code (lit "R1") (lit "AT1") (lit "5a") (lit "AAAA"))). eexists. split; [vm_compute; intuition discriminate|vm_compute; reflexivity].
Qed.
