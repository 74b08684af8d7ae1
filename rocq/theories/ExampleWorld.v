(** A concrete world for the examples: no Unicode data beyond ASCII and toy
    stand-ins for the cryptographic primitives. It shows that hypotheses about
    worlds can be met; it plays no role in any theorem. *)
From Coq Require Import Lia ZifyClasses ZifyN ZifyBool.
From Verif Require Import PyBase World Regex Codec Algo ListFacts CodecFacts CodecFacts2 AlgoFacts SpecKeys PemFacts.
Open Scope N_scope.

(** A checksum with 32 bytes of output. *)
Definition toy_mix (st : bytes) (x : N) : bytes :=
  match st with [] => [] | h :: t => t ++ [(h * 5 + x) mod 256] end.
Definition toy_hash (b : bytes) : bytes :=
  let s := fold_left toy_mix b [1; 2; 3; 4; 5; 6; 7; 8] in s ++ s ++ s ++ s.

Definition toy_block (k b : bytes) : bytes := firstn 16 (toy_hash (k ++ 0 :: b)).

Definition toy_sign (k m : bytes) : bytes := toy_hash (k ++ m) ++ toy_hash (m ++ k).

(** PEM texts with their first and last line removed. *)
Definition toy_unpem (s : str) : option bytes :=
  match split_char c_nl s with
  | _ :: ls =>
      match a2b_base64 (List.concat (removelast ls)) with
      | Ok b => match b with [] => None | _ => Some b end
      | Err _ => None
      end
  | [] => None
  end.

Definition toy_world : world := {|
  u_decimal := fun _ => None;
  u_isdigit := fun _ => false;
  u_isalnum := fun _ => false;
  u_isspace := fun _ => false;
  u_upper := fun s => s;
  u_lower := fun s => s;
  w_sha256 := toy_hash;
  w_aes := toy_block;
  w_es256_verify := fun k m s => str_eqb s (toy_sign k m);
  w_es256_sign := toy_sign;
  w_load_cert := toy_unpem;
  w_load_pubkey := toy_unpem;
  (* A toy certificate is its serial number (one byte), its key, and the key
     that signed it (one byte each). *)
  w_serial := fun c => Z.of_N (nth 0 c 0);
  w_cert_pubkey := fun c => [nth 1 c 0];
  w_cert_signed_by := fun c s => nth 2 c 0 =? nth 1 s 0;
  w_cert_pem := fun c => pem_text cert_label [b64encode c] [c_nl];
  w_pubkey_pem := fun k => pem_text key_label [b64encode k] [c_nl]
|}.

Lemma toy_hash_ok : hash_ok toy_world.
Proof.
  intros b. change (w_sha256 toy_world b) with (toy_hash b). unfold toy_hash.
  assert (forall s, List.length s = 8%nat -> is_bytes s ->
    List.length (fold_left toy_mix b s) = 8%nat /\ is_bytes (fold_left toy_mix b s)) as H.
  { induction b as [|x b IH]; intros s L B; [auto|]. cbn [fold_left]. apply IH.
    - destruct s as [|h t]; [discriminate|]. cbn [toy_mix]. rewrite app_length. cbn [List.length] in *. lia.
    - destruct s as [|h t]; [discriminate|]. cbn [toy_mix]. unfold is_bytes in *. apply Forall_cons_iff in B as [_ B].
      apply Forall_app. split; [exact B|]. constructor; [|constructor]. now apply N.mod_lt. }
  destruct (H [1; 2; 3; 4; 5; 6; 7; 8]) as [L B]; [reflexivity|repeat constructor|].
  cbv zeta. rewrite !app_length, L. split; [reflexivity|]. unfold is_bytes in *. now rewrite !Forall_app.
Qed.

Lemma toy_aes_ok : aes_ok toy_world.
Proof.
  intros k b. change (w_aes toy_world k b) with (toy_block k b). unfold toy_block. destruct (toy_hash_ok (k ++ 0 :: b)) as [L B].
  change (w_sha256 toy_world (k ++ 0 :: b)) with (toy_hash (k ++ 0 :: b)) in L, B. split.
  - rewrite firstn_length, L. reflexivity.
  - unfold is_bytes in *. rewrite Forall_forall in *. intros x Hx. apply B.
    rewrite <- (firstn_skipn 16). apply in_or_app. now left.
Qed.

(** The data of a toy PEM text wherever its lines break. *)
Lemma toy_unpem_text label ls : ~ In c_nl label -> Forall pem_data ls ->
  toy_unpem (pem_text label ls []) =
    match a2b_base64 (List.concat ls) with Ok [] => None | Ok b => Some b | Err _ => None end.
Proof.
  intros NL F. unfold toy_unpem, pem_text.
  assert (forall l r, ~ In c_nl l -> split_char c_nl (l ++ c_nl :: r) = l :: split_char c_nl r) as L1
    by (intros; now apply split_char_app).
  match goal with |- context [split_char c_nl ?t] =>
    replace t with ((lit "-----BEGIN " ++ label ++ lit "-----") ++ c_nl :: List.concat (map (fun l => l ++ [c_nl]) ls)
      ++ lit "-----END " ++ label ++ lit "-----") by (rewrite app_nil_r, <- !app_assoc; reflexivity) end.
  rewrite L1.
  2: { rewrite !in_app_iff. intros [H|[H|H]]; [|contradiction|]; cbn in H; unfold c_nl in H; intuition discriminate. }
  assert (split_char c_nl (List.concat (map (fun l => l ++ [c_nl]) ls) ++ lit "-----END " ++ label ++ lit "-----")
    = ls ++ [lit "-----END " ++ label ++ lit "-----"]) as ->.
  { induction F as [|l ls Fl _ IH].
    - cbn [map List.concat app]. apply split_char_nosep.
      rewrite !in_app_iff. intros [H|[H|H]]; [|contradiction|]; cbn in H; unfold c_nl in H; intuition discriminate.
    - cbn [map List.concat]. rewrite <- !app_assoc. cbn [app]. rewrite L1; [now rewrite IH|].
      intros H. unfold pem_data in Fl. rewrite Forall_forall in Fl. apply Fl in H. unfold pem_char, c_nl in H. lia. }
  rewrite removelast_last. destruct (a2b_base64 (List.concat ls)) as [[|]|]; reflexivity.
Qed.

Lemma toy_codec label : ~ In c_nl label -> pem_codec label toy_unpem (fun c => pem_text label [b64encode c] [c_nl]).
Proof.
  intros NL t c H. assert (is_bytes c /\ c <> []) as [B N].
  { unfold toy_unpem in H. destruct (split_char c_nl t) as [|l l0]; [discriminate|].
    destruct (a2b_base64 (List.concat (removelast l0))) as [[|b bs]|] eqn:E; try discriminate. apply Some_inj in H. subst c.
    split; [|discriminate]. now apply a2b_bytes in E. }
  pose proof (b64encode_data c) as D.
  exists [b64encode c]. split; [reflexivity|]. split; [now constructor|]. cbn [List.concat]. rewrite app_nil_r. split.
  - destruct c as [|x [|y [|z c]]]; [contradiction|discriminate..].
  - intros ls' F E. rewrite toy_unpem_text; [|exact NL|eapply Forall_impl; [|exact F]; intros l Hl; apply Hl].
    rewrite E. rewrite a2b_b64encode by exact B. destruct c; [contradiction|reflexivity].
Qed.

Lemma toy_pem_ok : pem_ok toy_world.
Proof.
  split; apply toy_codec; cbn; unfold c_nl; intuition discriminate.
Qed.
