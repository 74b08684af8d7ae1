(** What is said about streams of groups. *)
From Coq Require Import Permutation.
From Verif Require Import PyBase World DepParser DepExport.
Open Scope N_scope.

(** The receipts in order, each with certificate and chain, and with the
    certificate only *)
Definition stamps {A} (gs : list (rgroup A)) : list (A * (option cert * list cert)) :=
  flat_map (fun g => map (fun r => (r, (rg_cert g, rg_chain g))) (rg_recs g)) gs.
Definition cert_stamps {A} (gs : list (rgroup A)) : list (A * option cert) :=
  flat_map (fun g => map (fun r => (r, rg_cert g)) (rg_recs g)) gs.

(** Any two adjacent groups *)
Definition neighbours {A} (P : rgroup A -> rgroup A -> Prop) (gs : list (rgroup A)) : Prop :=
  forall l1 a b l2, gs = l1 ++ a :: b :: l2 -> P a b.

(** A use of a MergingDEPStream: the next group, or the next receipt of a group
    that was handed out. *)
Inductive call := NextGroup | NextReceipt (i : nat).

(** The receipts that are delivered, each with the certificate its group was
    handed out with; calls on groups that were not handed out are impossible. *)
Fixpoint use {A} (m : merging A) (calls : list call) : list (A * option cert) * merging A :=
  match calls with
  | [] => ([], m)
  | NextGroup :: r => use (snd (next_group m)) r
  | NextReceipt i :: r =>
      match next_receipt m i with
      | None => use m r
      | Some (x, m') =>
          let ds := match x, nth_error (mg_streams m) i with
                    | Got a, Some s => [(a, in_cert s)]
                    | _, _ => []
                    end in
          (ds ++ fst (use m' r), snd (use m' r))
      end
  end.

(** The receipts that are still to be delivered *)
Definition pending {A} (m : merging A) : list (A * option cert) :=
  flat_map (fun s => map (fun r => (r, in_cert s)) (in_backing s)) (mg_streams m)
  ++ cert_stamps (fst (mg_backing m)).
