(** What is said about the conversion of DEPs to tables and back. *)
From Verif Require Import PyBase World Codec Receipt Json SpecReceipt ReceiptFacts RoundTrip2 SpecDep SpecCluster DepExport.
Open Scope N_scope.

(** The texts of all receipts in order *)
Definition all_texts (gs : list group) : list str := flat_map gr_texts gs.

(** The columns of a table, in the order of the fields of receipts *)
Definition column_names : list str :=
  [lit "Alg+ZDA"; lit "Register ID"; lit "Receipt ID"; lit "Date+Time"; lit "Sum A"; lit "Sum B"; lit "Sum C"; lit "Sum D"; lit "Sum E";
   lit "Turnover Counter"; lit "Cert. Serial"; lit "Chaining Value"; lit "Signature"].
Definition column_line : str := join (lit ";") column_names.

(** The lines of a table: names of the columns, then a line for each receipt *)
Definition table (lines : list str) : str := List.concat (map (fun l => l ++ [c_nl]) (column_line :: lines)).

(** The receipt, in canonical encoding, has no field with a semicolon, a line
    break, or blanks at the ends. *)
Definition tabular (w : world) (t : str) : Prop :=
  (exists h p g, t = h ++ [c_dot] ++ p ++ [c_dot] ++ g /\ canon_seg h /\ canon_seg p /\ canon_seg g)
  /\ exists r, reads w t r /\ csv_safe w (r_fields r)
     /\ Forall (fun s => ~ In c_nl s /\ ~ In 13 s) (csv_fields (r_fields r)).
