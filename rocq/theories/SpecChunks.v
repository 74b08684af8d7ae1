(** What the chunks of a DEP must be. *)
From Verif Require Import PyBase World Codec Json Pem DepParser SpecCluster.
Open Scope N_scope.

(** The group tuples with the encoded receipts of groups *)
Definition encoded (g : group) (dg : dgroup) : Prop :=
  Forall2 (fun t b => utf8_encode t = Ok b) (gr_texts g) (g_recs dg)
  /\ g_cert dg = gr_cert g /\ g_chain dg = gr_chain g.

(** Each receipt with the certificates of its group, in order *)
Definition stamped (dgs : list dgroup) : list (bytes * (option cert * list cert)) :=
  flat_map (fun g => map (fun b => (b, (g_cert g, g_chain g))) (g_recs g)) dgs.

Definition size (dgs : list dgroup) : nat := List.length (stamped dgs).

Definition has_receipts (g : dgroup) : bool := match g_recs g with [] => false | _ => true end.

(** The part of the groups with [n] receipts after the first [a] *)
Fixpoint window (a n : nat) (dgs : list dgroup) : list dgroup :=
  match dgs with
  | [] => []
  | g :: r =>
      let len := List.length (g_recs g) in
      filter has_receipts [DGroup (firstn n (skipn a (g_recs g))) (g_cert g) (g_chain g)]
      ++ window (a - len) (n - (len - a)) r
  end.

(** [n] receipts each, and the rest *)
Definition number_of_chunks (n total : nat) : nat := Nat.div (total + Nat.pred n) n.
Definition chunks_of (n : nat) (dgs : list dgroup) : list chunk :=
  map (fun k => window (k * n) n dgs) (seq 0 (number_of_chunks n (size dgs))).

(** The same in terms of what chunks contain *)
Definition delivers (n : nat) (dgs : list dgroup) (chunks : list chunk) : Prop :=
  flat_map stamped chunks = stamped dgs
  /\ Forall (Forall (fun g => g_recs g <> [])) chunks
  /\ (forall l c, chunks = l ++ [c] -> Forall (fun c' => size c' = n) l /\ (0 < size c <= n)%nat).

(** All groups with receipts have certificates, or there is only one such group. *)
Definition certs_or_one (gs : list group) : Prop := all_certs (occupied gs) \/ List.length (occupied gs) = 1%nat.

(** ** Distribution of work *)

(** Every receipt with its verifier *)
Definition assigned {A} (groups : list (list A * nat)) : list (A * nat) :=
  flat_map (fun g => map (fun r => (r, snd g)) (fst g)) groups.

(** Neighbouring groups have different verifiers. *)
Fixpoint alternating {A} (groups : list (list A * nat)) : Prop :=
  match groups with
  | g :: (h :: _) as r => snd g <> snd h /\ alternating r
  | _ => True
  end.

(** Every element "Belege-kompakt" is an array. *)
Definition arrays (dep : json) : Prop :=
  forall d js, dep = JDict d -> dict_get d k_bg = Some (JList js) ->
  Forall (fun j => forall g jr, j = JDict g -> dict_get g k_recs = Some jr -> exists l, jr = JList l) js.

(** A chunk that contains receipts *)
Definition with_receipts (c : chunk) : Prop := Exists (fun g => g_recs g <> []) c.
