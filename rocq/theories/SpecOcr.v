(** OCR codes and CSV lines: which QR code they stand for, and why they cannot be read.
    Independent of the parser. *)
From Verif Require Import PyBase World Codec SpecReceipt SpecCodec SpecReading.
Open Scope N_scope.

(** RFC 4648 base 32, read leniently: the digits give the octets and less than another
    digit, whose bits are arbitrary. *)
Definition base32 (s : str) (b : bytes) : Prop :=
  exists digits rest pads,
    s = map (fun d => nth (N.to_nat d) alphabet32 0) digits ++ repeat c_eq pads
    /\ Forall (fun d => d < 32) digits /\ is_bytes b
    /\ flat_map (bits 5) digits = flat_map (bits 8) b ++ rest /\ (List.length rest < 5)%nat
    /\ Nat.modulo (List.length s) 8 = 0%nat /\ (pads < 8)%nat.
Definition ascii_text (s : str) : Prop := Forall (fun c => c < 128) s.

(** Thirteen elements: nine, the counter, the serial number, the chaining value, the signature *)
Definition ocr_parts (s : str) (before : list str) (tc serial chain sg : str) : Prop :=
  s = join [c_us] ([] :: before ++ [tc; serial; chain; sg]) /\ List.length before = 9%nat
  /\ Forall (fun x => ~ In c_us x) (before ++ [tc; serial; chain; sg]).

(** The QR code with the same octets in base 64 *)
Definition ocr_code (s qr : str) : Prop :=
  exists before tc serial chain sg tb cb sb,
    ocr_parts s before tc serial chain sg /\ base32 tc tb /\ base32 chain cb /\ base32 sg sb
    /\ qr = join [c_us] ([] :: before ++ [b64encode tb; serial; b64encode cb; b64encode sb]).

(** The faults: those of the form are reported with the OCR code, those beyond it as
    for the QR code. The first element that is not in base 32 decides. *)
Inductive ocr_fault (w : world) (s : str) : exn -> Prop :=
| of_form : (forall before tc serial chain sg, ~ ocr_parts s before tc serial chain sg) -> ocr_fault w s (MalformedReceipt s)
| of_element before tc serial chain sg sound x later : ocr_parts s before tc serial chain sg -> [tc; chain; sg] = sound ++ x :: later ->
    Forall (fun y => exists b, base32 y b) sound -> (forall b, ~ base32 x b) -> ascii_text x -> ocr_fault w s (MalformedReceipt s)
| of_unicode before tc serial chain sg sound x later : ocr_parts s before tc serial chain sg -> [tc; chain; sg] = sound ++ x :: later ->
    Forall (fun y => exists b, base32 y b) sound -> ~ ascii_text x -> ocr_fault w s PyUnicodeEncodeError
| of_code qr e : ocr_code s qr -> code_fault w qr e -> ocr_fault w s e.

(** Python 3: no OCR code can be read *)
Inductive ocr3_fault (s : str) : exn -> Prop :=
| o3_form : (forall before tc serial chain sg, ~ ocr_parts s before tc serial chain sg) -> ocr3_fault s (MalformedReceipt s)
| o3_any before tc serial chain sg : ocr_parts s before tc serial chain sg -> ocr3_fault s PyAttributeError.

(** A text without the white space around it *)
Definition blanks (w : world) (s : str) : Prop := Forall (fun c => char_isspace w c = true) s.
Definition trimmed (w : world) (s t : str) : Prop :=
  (exists a b, s = a ++ t ++ b /\ blanks w a /\ blanks w b)
  /\ (forall c r, t = c :: r -> char_isspace w c = false) /\ (forall c r, t = r ++ [c] -> char_isspace w c = false).

(** The QR code a CSV line stands for *)
Definition csv_code (w : world) (s qr : str) : Prop :=
  exists parts parts', s = join [c_semi] parts /\ parts <> [] /\ Forall (fun x => ~ In c_semi x) parts
    /\ Forall2 (trimmed w) parts parts' /\ qr = join [c_us] ([] :: parts').
