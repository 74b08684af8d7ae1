(** URL hashes and where they are in a URL. *)
From Verif Require Import PyBase.
Open Scope N_scope.

Definition url_safe (c : N) : Prop :=
  65 <= c <= 90 \/ 97 <= c <= 122 \/ 48 <= c <= 57 \/ c = 95 \/ c = 45.
Definition hash_text (h : str) : Prop := List.length h = 11%nat /\ Forall url_safe h.

(** A hash as a word of its own. *)
Definition word_at (url pre h post : str) : Prop :=
  url = pre ++ h ++ post /\ hash_text h
  /\ (forall p c, pre = p ++ [c] -> ~ url_safe c) /\ (forall p c, post = c :: p -> ~ url_safe c).
Definition last_word (url h : str) : Prop :=
  exists pre post, word_at url pre h post
    /\ forall pre' h' post', word_at url pre' h' post' -> (List.length pre' <= List.length pre)%nat.
