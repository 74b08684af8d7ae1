(** Receipts of tests whose whole text is overridden (jwsOverride). *)
From Verif Require Import PyBase World Json Pem KeyStore Receipt DepBase DepParser DepExport CashReg Override.
Open Scope N_scope.
Open Scope py_scope.

(** librksv/cashreg.py:82-99 MangledReceipt: the receipt, with the other overrides of
    Override.v in it, and the element jwsOverride. It is taken to be a text. *)
Record mangled : Type := Mangled { m_rec : receipt; m_jws : option str }.

(** librksv/cashreg.py:96-99 MangledReceipt.toJWSString *)
Definition mangled_text (m : mangled) (algorithmPrefix : str) : result str :=
  match m_jws m with
  | Some t => Ok t
  | None => toJWSString (m_rec m) algorithmPrefix
  end.

(** librksv/run_test.py:227-230 for the receipts of one register, with
    librksv/cashreg.py:128-191: the element jwsOverride becomes an attribute of the
    receipt and is not looked at otherwise. *)
Fixpoint issue_texts (w : world) (g : cashreg) (qs : list (request * override * option str)) : cashreg * result (list (mangled * str)) :=
  match qs with
  | [] => (g, Ok [])
  | (q, o, x) :: r =>
      match issue_over w g (lit "R1") o q with
      | (g', Err e) => (g', Err e)
      | (g', Ok rec) =>
          let (g'', rest) := issue_texts w g' r in
          (g'', do l <- rest; Ok ((Mangled rec x, given (ov_prefix o) (lit "R1")) :: l))
      end
  end.

(** librksv/depexport.py:203-210 mkdict, with the text of such receipts *)
Definition export_mangled_group (w : world) (g : rgroup (mangled * str)) : result json :=
  do recs <- mapM (fun r : mangled * str => mangled_text (fst r) (snd r)) (rg_recs g);
  Ok (JDict [(k_cert, JStr (match rg_cert g with Some c => exportCertToPEM w c | None => [] end));
             (k_certs, JList (map (fun c => JStr (exportCertToPEM w c)) (rg_chain g)));
             (k_recs, JList (map JStr recs))]).

(** librksv/depexport.py:202-219 DEPExporter.export without extra elements *)
Definition export_mangled (w : world) (gs : list (rgroup (mangled * str))) : result json :=
  do js <- mapM (export_mangled_group w) gs; Ok (with_extra (JList js) []).
