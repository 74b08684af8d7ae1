(** PEM texts, librksv/utils.py:129-192. *)
From Verif Require Import PyBase World Codec.
Open Scope N_scope.
Open Scope py_scope.

(** [s.splitlines()]: lines end with line feed, carriage return (or both), and
    a few other characters; an unterminated last line counts unless empty. *)
Definition is_line_end (c : N) : bool :=
  ((10 <=? c) && (c <=? 13)) || ((28 <=? c) && (c <=? 30)) || (c =? 133) || (c =? 8232) || (c =? 8233).

Fixpoint splitlines (s : str) : list str :=
  match s with
  | [] => []
  | c :: r =>
      if is_line_end c then
        [] :: match r with
              | n :: r' => if (c =? 13) && (n =? c_nl) then splitlines r' else splitlines r
              | [] => []
              end
      else match splitlines r with
           | [] => [[c]]
           | l :: ls => (c :: l) :: ls
           end
  end.

(** librksv/utils.py:153-172 exportCertToPEM, exportKeyToPEM: the lines but the
    first and the last ([1:-1]), joined. *)
Definition strip_pem (pem : str) : str := List.concat (removelast (tl (splitlines pem))).
Definition exportCertToPEM (w : world) (c : cert) : str := strip_pem (w_cert_pem w c).
Definition exportKeyToPEM (w : world) (k : pubkey) : str := strip_pem (w_pubkey_pem w k).

(** [[s[i:i+64] for i in range(0, len(s), 64)]]; the fuel is an upper bound of
    the number of pieces. *)
Fixpoint pieces_fuel (fuel : nat) (s : str) : list str :=
  match fuel, s with
  | _, [] => []
  | O, _ => []
  | S f, _ => firstn 64 s :: pieces_fuel f (skipn 64 s)
  end.
Definition pieces (s : str) : list str := pieces_fuel (List.length s) s.

(** librksv/utils.py:174-192 addPEMCertHeaders, addPEMPubKeyHeaders *)
Definition addPEMCertHeaders (s : str) : str :=
  lit "-----BEGIN CERTIFICATE-----" ++ [c_nl] ++ join [c_nl] (pieces s) ++ c_nl :: lit "-----END CERTIFICATE-----".
Definition addPEMPubKeyHeaders (s : str) : str :=
  lit "-----BEGIN PUBLIC KEY-----" ++ [c_nl] ++ join [c_nl] (pieces s) ++ c_nl :: lit "-----END PUBLIC KEY-----".

(** librksv/utils.py:129-143 loadCert, loadPubKey. UnicodeEncodeError is a
    ValueError, as is the error for malformed PEM texts. *)
Definition loadCert (w : world) (pem : str) : result cert :=
  do b <- utf8_encode pem;
  match w_load_cert w b with Some c => Ok c | None => Err PyValueError end.
Definition loadPubKey (w : world) (pem : str) : result pubkey :=
  do b <- utf8_encode pem;
  match w_load_pubkey w b with Some k => Ok k | None => Err PyValueError end.

(** [except ValueError] *)
Definition value_error (e : exn) : bool :=
  match e with
  | PyValueError | PyUnicodeEncodeError | PyUnicodeDecodeError | PyBinasciiError => true
  | _ => false
  end.

(** librksv/depparser.py:366-380 parseDEPCert applied to a text *)
Definition parseDEPCert (w : world) (s : str) : result cert :=
  catch (loadCert w (addPEMCertHeaders s)) value_error MalformedDEPCertificate.
