(** What a printed amount denotes, in cents: decimal notation, no floating point. *)
From Verif Require Import PyBase World SpecReceipt Receipt ReceiptFacts SpecDep.
Open Scope Z_scope.

(** Positional value of a sequence of digits *)
Fixpoint decimal_value (ds : list N) : Z :=
  match ds with
  | [] => 0
  | d :: r => Z.of_N d * 10 ^ Z.of_nat (List.length r) + decimal_value r
  end.

(** The text is an amount (see [amount_text]) of [z] cents. *)
Definition amount_cents (w : world) (s : str) (z : Z) : Prop :=
  amount_text w s /\
  exists sign euros x y nl ds,
    s = sign ++ euros ++ [c_comma; x; y] ++ nl /\ final_nl nl
    /\ Forall2 (fun c d => decimal w c = Some d) (euros ++ [x; y]) ds
    /\ ((sign = [] /\ z = decimal_value ds) \/ (sign = [c_dash] /\ z = - decimal_value ds)).

(** At most one trillion euros, in cents *)
Definition moderate (z : Z) : Prop := - 10 ^ 14 <= z <= 10 ^ 14.

(** The five amounts printed on a receipt *)
Definition printed_amounts (w : world) (r : receipt) (zs : list Z) : Prop :=
  let f := r_fields r in
  Forall2 (amount_cents w) [f_a f; f_b f; f_c f; f_d f; f_e f] zs.

Definition total (zs : list Z) : Z := fold_right Z.add 0 zs.

(** Turnover of a sequence of receipts by the amounts printed on them *)
Definition printed_turnover (w : world) (l : list item) (z : Z) : Prop :=
  exists cs, Forall2 (fun i c => (training (i_rec i) /\ c = 0)
      \/ (~ training (i_rec i) /\ exists zs, printed_amounts w (i_rec i) zs /\ c = total zs)) l cs
    /\ z = total cs.

Definition all_moderate (w : world) (l : list item) : Prop :=
  Forall (fun i => forall zs, printed_amounts w (i_rec i) zs -> Forall moderate zs) l.
