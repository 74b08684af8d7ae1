(** Splitting and merging DEPs from the command line. *)
From Verif Require Import PyBase World Codec Json KeyStore SpecCluster SpecExport StateArgv DepArgv.
Open Scope N_scope.

(** The files after some were written, each under another name *)
Definition written_to (fs : files) (l : list (str * json)) (fs' : files) : Prop :=
  (forall n j, In (n, j) l -> f_json fs' n = Ok j) /\ forall n, ~ In n (map fst l) -> f_json fs' n = f_json fs n /\ f_text fs' n = f_text fs n.

(** The names of the parts in the order of their numbers *)
Definition parts (dir : str) (n : nat) : list str := map (fun i => dir ++ lit "/dep-export" ++ fmt_d (Z.of_nat i) ++ lit ".json") (seq 0 n).

(** merge.py is called with or without the option, and with at least two files. *)
Definition merge_words (merge : bool) (names : list str) : list str := if merge then names else lit "nomerge" :: names.
Definition merge_asks (args : list str) (merge : bool) (names : list str) : Prop :=
  args = merge_words merge names /\ (2 <= List.length names)%nat /\ (merge = true -> hd_error names <> Some (lit "nomerge")).

(** Receipts with certificates, without chains *)
Definition with_certs (gs : list group) : list (str * option cert) := map (fun x => (fst x, fst (snd x))) (text_stamps gs).

(** Alphabetical order, as a shell sorts names *)
Inductive alphabetical : list N -> list N -> Prop :=
| al_end s : alphabetical [] s
| al_less a b s t : a < b -> alphabetical (a :: s) (b :: t)
| al_same a s t : alphabetical s t -> alphabetical (a :: s) (a :: t).
