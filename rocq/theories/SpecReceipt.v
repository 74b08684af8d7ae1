(** What a receipt text looks like: a grammar, independent of the parser.

    Digits are the decimal digits of Unicode ([decimal]), since the patterns of
    the code use [\d]; [opt_nl] is the line feed that Python's [$] tolerates at
    the end of a text. *)
From Verif Require Import PyBase World Codec PyTime Algo.
Open Scope N_scope.

(** The twelve fields of a receipt as printed. *)
Record fields : Type := Fields {
  f_zda : str; f_register : str; f_receipt : str; f_time : str;
  f_a : str; f_b : str; f_c : str; f_d : str; f_e : str;
  f_tc : str; f_serial : str; f_chain : str }.

Definition final_nl (nl : str) : Prop := nl = [] \/ nl = [c_nl].

Definition digit (w : world) (c : N) : Prop := exists d, decimal w c = Some d.
Definition digit19 (c : N) : Prop := 49 <= c <= 57.
Definition letter (c : N) : Prop := 65 <= c <= 90.

(** Provider IDs: AT0, or a country code and a number. *)
Definition zda_text (w : world) (s : str) : Prop :=
  exists t nl, s = t ++ nl /\ final_nl nl /\
    (t = lit "AT0" \/
     exists a b c ds, t = a :: b :: c :: ds /\ letter a /\ letter b /\ digit19 c /\ Forall (digit w) ds).

(** Amounts: an optional minus sign, euros without leading zeros, a comma, two
    digits of cents. *)
Definition amount_text (w : world) (s : str) : Prop :=
  exists sign euros x y nl,
    s = sign ++ euros ++ [c_comma; x; y] ++ nl /\ final_nl nl
    /\ (sign = [] \/ sign = [c_dash])
    /\ Forall (digit w) euros /\ digit w x /\ digit w y
    /\ ((exists c, euros = [c]) \/ (exists c c' r, euros = c :: c' :: r /\ digit19 c)).

(** Calendar dates and times of day. *)
Definition leap_year (y : N) : Prop :=
  (y mod 4 = 0 /\ y mod 100 <> 0) \/ y mod 400 = 0.

Definition days_in_month (y m n : N) : Prop :=
  (In m [1; 3; 5; 7; 8; 10; 12] /\ n = 31) \/ (In m [4; 6; 9; 11] /\ n = 30) \/
  (m = 2 /\ leap_year y /\ n = 29) \/ (m = 2 /\ ~ leap_year y /\ n = 28).

Definition valid_dt (d : dt) : Prop :=
  1 <= dt_year d <= 9999 /\ 1 <= dt_day d
  /\ (exists n, days_in_month (dt_year d) (dt_month d) n /\ dt_day d <= n)
  /\ dt_hour d < 24 /\ dt_min d < 60 /\ dt_sec d < 60.

(** The texts of the fields of a time stamp. Leading zeros may be left out; the
    second digit may be any Unicode digit in places. *)
Definition year_text (w : world) (s : str) (v : N) : Prop :=
  exists a b c d x y z u, s = [a; b; c; d] /\ decimal w a = Some x /\ decimal w b = Some y
    /\ decimal w c = Some z /\ decimal w d = Some u /\ v = x * 1000 + y * 100 + z * 10 + u.
Definition month_text (s : str) (v : N) : Prop :=
  (s = [48 + v] /\ 1 <= v <= 9) \/ (s = [48 + v / 10; 48 + v mod 10] /\ 1 <= v <= 12).
Definition day_text (w : world) (s : str) (v : N) : Prop :=
  (s = [48 + v] /\ 1 <= v <= 9) \/ (s = [48; 48 + v] /\ 1 <= v <= 9) \/ (s = [32; 48 + v] /\ 1 <= v <= 9)
  \/ (exists c, s = [48 + v / 10; c] /\ decimal w c = Some (v mod 10) /\ 10 <= v <= 29)
  \/ (s = [51; 48 + v mod 10] /\ 30 <= v <= 31).
Definition hour_text (w : world) (s : str) (v : N) : Prop :=
  (exists c, s = [c] /\ decimal w c = Some v)
  \/ (exists c, s = [48 + v / 10; c] /\ decimal w c = Some (v mod 10) /\ v < 20)
  \/ (s = [50; 48 + v mod 10] /\ 20 <= v <= 23).
Definition minute_text (w : world) (s : str) (v : N) : Prop :=
  (exists c, s = [c] /\ decimal w c = Some v)
  \/ (exists c, s = [48 + v / 10; c] /\ decimal w c = Some (v mod 10) /\ v < 60).

Definition time_text (w : world) (s : str) (d : dt) : Prop :=
  exists ty tm td th ti ts t,
    s = ty ++ c_dash :: tm ++ c_dash :: td ++ t :: th ++ c_colon :: ti ++ c_colon :: ts
    /\ (t = 84 \/ t = 116)
    /\ year_text w ty (dt_year d) /\ month_text tm (dt_month d) /\ day_text w td (dt_day d)
    /\ hour_text w th (dt_hour d) /\ minute_text w ti (dt_min d) /\ minute_text w ts (dt_sec d)
    /\ valid_dt d.

(** Key IDs (closed systems) and certificate serial numbers (open systems). *)
Definition tax_text (w : world) (s : str) : Prop :=
  exists b, s = lit "S:" ++ b /\ List.length b = 9%nat /\ isdigit w b = true.
Definition uid_text (w : world) (s : str) : Prop :=
  exists b, s = lit "U:" ++ b /\ (1 <= List.length b <= 14)%nat /\ isalnum w b = true /\ upper w b = b.
Definition gln_text (w : world) (s : str) : Prop :=
  exists b, s = lit "G:" ++ b /\ List.length b = 13%nat /\ isdigit w b = true.
Definition number_text (w : world) (s : str) : Prop :=
  (exists z, py_int w 16 s = Some z) \/ (exists z, py_int w 10 s = Some z).

Definition key_body (w : world) (s : str) : Prop := tax_text w s \/ uid_text w s \/ gln_text w s.

(** A minus sign in front, or a dash and an alphanumeric suffix behind. *)
Definition with_dash (w : world) (P : str -> Prop) (s : str) : Prop :=
  exists b, P b /\ ~ In c_dash b /\
    (s = b \/ s = c_dash :: b \/ exists x, s = b ++ c_dash :: x /\ isalnum w x = true).

Definition key_id_text (w : world) (s : str) : Prop := with_dash w (key_body w) s.
Definition cert_serial_text (w : world) (s : str) : Prop := with_dash w (number_text w) s.

(** Turnover counters: encrypted values have 5 to 16 bytes; a receipt under
    construction has none. *)
Definition tc_text (s : str) : Prop :=
  exists b, b64decode s = Ok b /\
    (List.length b = 0%nat \/ (5 <= List.length b <= 16)%nat \/ b = lit "TRA" \/ b = lit "STO").

(** What the constructor demands of the fields. *)
Definition wf_fields (w : world) (f : fields) : Prop :=
  f_receipt f <> [] /\ ~ In c_us (f_receipt f)
  /\ f_register f <> [] /\ ~ In c_us (f_register f)
  /\ zda_text w (f_zda f)
  /\ (exists d, time_text w (f_time f) d)
  /\ amount_text w (f_a f) /\ amount_text w (f_b f) /\ amount_text w (f_c f)
  /\ amount_text w (f_d f) /\ amount_text w (f_e f)
  /\ tc_text (f_tc f)
  /\ (exists b, b64decode (f_chain f) = Ok b)
  /\ ((f_zda f = lit "AT0" /\ key_id_text w (f_serial f)) \/
      (f_zda f <> lit "AT0" /\ cert_serial_text w (f_serial f))).

(** What the parsers demand in addition: a turnover counter, a chaining value of
    eight bytes and no separator in the certificate field. *)
Definition wf_printed (w : world) (f : fields) : Prop :=
  wf_fields w f
  /\ (exists c, In c (f_tc f) /\ c <> c_eq)
  /\ (exists b, b64decode (f_chain f) = Ok b /\ List.length b = 8%nat)
  /\ ~ In c_us (f_serial f).

(** The payload: all fields, separated and led by underscores. *)
Definition payload_text (f : fields) : str :=
  join [c_us] [[]; lit "R1-" ++ f_zda f; f_register f; f_receipt f; f_time f;
               f_a f; f_b f; f_c f; f_d f; f_e f; f_tc f; f_serial f; f_chain f].

(** A JWS segment and the bytes it stands for. Padding at its end is refused. *)
Definition seg_decodes (s : str) (b : bytes) : Prop :=
  ends_with_char c_eq s = false /\ urlsafe_b64decode (restoreb64padding s) = Ok b.

Definition es256_header : str := lit "{""alg"":""ES256""}".

Definition jws_text (w : world) (s : str) (f : fields) (sg : str) : Prop :=
  exists h p hb pb gb,
    s = h ++ [c_dot] ++ p ++ [c_dot] ++ sg
    /\ seg_decodes h hb /\ utf8_encode es256_header = Ok hb
    /\ seg_decodes p pb /\ utf8_encode (payload_text f) = Ok pb
    /\ seg_decodes sg gb
    /\ wf_printed w f.

Definition qr_text (w : world) (s : str) (f : fields) (sg : bytes) : Prop :=
  exists g, s = payload_text f ++ [c_us] ++ g /\ b64decode g = Ok sg /\ wf_printed w f.

(** JWS segments in canonical form: no padding, no white space, unused bits
    zero. *)
Definition seg_last (s : str) : N :=
  match b64_val (from_urlsafe (last s 0)) with Some v => v | None => 0 end.
Definition is_url_char (c : N) : Prop :=
  65 <= c <= 90 \/ 97 <= c <= 122 \/ 48 <= c <= 57 \/ c = c_dash \/ c = c_us.
Definition canon_seg (s : str) : Prop :=
  Forall is_url_char s
  /\ ((List.length s mod 4 = 0)%nat
      \/ ((List.length s mod 4 = 2)%nat /\ seg_last s mod 16 = 0)
      \/ ((List.length s mod 4 = 3)%nat /\ seg_last s mod 4 = 0)).
