(** The texts that a DEP contains if some of them are replaced. *)
From Verif Require Import PyBase Receipt DepExport.

(** The texts given, and otherwise those of the receipts *)
Inductive replaced : list (option str) -> list rtuple -> list str -> Prop :=
| rep_nil : replaced [] [] []
| rep_given t xs r rs ts : replaced xs rs ts -> replaced (Some t :: xs) (r :: rs) (t :: ts)
| rep_own t xs r rs ts : toJWSString (fst r) (snd r) = Ok t -> replaced xs rs ts -> replaced (None :: xs) (r :: rs) (t :: ts).
