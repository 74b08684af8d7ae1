(** Time stamps: [datetime.datetime.strptime(s, "%Y-%m-%dT%H:%M:%S")]. *)
From Verif Require Import PyBase World.
Open Scope N_scope.

(** A [datetime] without time zone and microseconds. *)
Record dt : Type := Dt { dt_year : N; dt_month : N; dt_day : N;
                         dt_hour : N; dt_min : N; dt_sec : N }.

(** Order of datetime objects (CPython compares the fields from year to
    second). *)
Definition dt_fields (d : dt) : list N :=
  [dt_year d; dt_month d; dt_day d; dt_hour d; dt_min d; dt_sec d].

Fixpoint lex_ltb (a b : list N) : bool :=
  match a, b with
  | [], [] => false
  | [], _ :: _ => true
  | _ :: _, [] => false
  | x :: a', y :: b' => if x <? y then true else if y <? x then false else lex_ltb a' b'
  end.

(** [a < b] *)
Definition dt_ltb (a b : dt) : bool := lex_ltb (dt_fields a) (dt_fields b).

Definition in_range (lo hi c : N) : bool := (lo <=? c) && (c <=? hi).

(** One directive of the pattern built by CPython's _strptime: the alternatives
    of two characters are tried before those of one character. [None] means no
    match. The character after a one-character match cannot start the literal
    that follows a two-character match, so backtracking never helps. *)
Definition two (w : world) (f : N -> N -> option N) (g : N -> option N) (s : str)
  : option (N * str) :=
  let one := match s with
             | a :: r => match g a with Some v => Some (v, r) | None => None end
             | [] => None
             end in
  match s with
  | a :: b :: r => match f a b with Some v => Some (v, r) | None => one end
  | _ => one
  end.

(** %m: 1[0-2]|0[1-9]|[1-9] *)
Definition p_month (w : world) : str -> option (N * str) :=
  two w
    (fun a b => if (a =? 49) && in_range 48 50 b then Some (b - 38)
                else if (a =? 48) && in_range 49 57 b then Some (b - 48) else None)
    (fun a => if in_range 49 57 a then Some (a - 48) else None).

(** %d: 3[0-1]|[1-2]\d|0[1-9]|[1-9]| [1-9] *)
Definition p_day (w : world) : str -> option (N * str) :=
  two w
    (fun a b =>
       if (a =? 51) && in_range 48 49 b then Some (b - 18)
       else if in_range 49 50 a then
         match decimal w b with Some d => Some ((a - 48) * 10 + d) | None => None end
       else if ((a =? 48) || (a =? 32)) && in_range 49 57 b then Some (b - 48) else None)
    (fun a => if in_range 49 57 a then Some (a - 48) else None).

(** %H: 2[0-3]|[0-1]\d|\d *)
Definition p_hour (w : world) : str -> option (N * str) :=
  two w
    (fun a b =>
       if (a =? 50) && in_range 48 51 b then Some (b - 28)
       else if in_range 48 49 a then
         match decimal w b with Some d => Some ((a - 48) * 10 + d) | None => None end
       else None)
    (decimal w).

(** %M: [0-5]\d|\d *)
Definition p_min (w : world) : str -> option (N * str) :=
  two w
    (fun a b =>
       if in_range 48 53 a then
         match decimal w b with Some d => Some ((a - 48) * 10 + d) | None => None end
       else None)
    (decimal w).

(** %S: 6[0-1]|[0-5]\d|\d *)
Definition p_sec (w : world) : str -> option (N * str) :=
  two w
    (fun a b =>
       if (a =? 54) && in_range 48 49 b then Some (b + 12)
       else if in_range 48 53 a then
         match decimal w b with Some d => Some ((a - 48) * 10 + d) | None => None end
       else None)
    (decimal w).

(** %Y: \d\d\d\d *)
Definition p_year (w : world) (s : str) : option (N * str) :=
  match s with
  | a :: b :: c :: d :: r =>
      match decimal w a, decimal w b, decimal w c, decimal w d with
      | Some x, Some y, Some z, Some u => Some (x * 1000 + y * 100 + z * 10 + u, r)
      | _, _, _, _ => None
      end
  | _ => None
  end.

Definition p_lit (f : N -> bool) (s : str) : option str :=
  match s with
  | c :: r => if f c then Some r else None
  | [] => None
  end.

Definition leap (y : N) : bool :=
  (y mod 4 =? 0) && (negb (y mod 100 =? 0) || (y mod 400 =? 0)).

Definition month_days (y m : N) : N :=
  if m =? 2 then (if leap y then 29 else 28)
  else if (m =? 4) || (m =? 6) || (m =? 9) || (m =? 11) then 30
  else 31.

(** The whole text has to match; dates that do not exist, year 0 and the
    seconds 60 and 61 are refused by the datetime constructor. [None] stands
    for ValueError. The pattern is compiled with IGNORECASE. *)
Definition strptime (w : world) (s : str) : option dt :=
  match p_year w s with None => None | Some (y, s) =>
  match p_lit (N.eqb c_dash) s with None => None | Some s =>
  match p_month w s with None => None | Some (mo, s) =>
  match p_lit (N.eqb c_dash) s with None => None | Some s =>
  match p_day w s with None => None | Some (d, s) =>
  match p_lit (fun c => (c =? 84) || (c =? 116)) s with None => None | Some s =>
  match p_hour w s with None => None | Some (h, s) =>
  match p_lit (N.eqb c_colon) s with None => None | Some s =>
  match p_min w s with None => None | Some (mi, s) =>
  match p_lit (N.eqb c_colon) s with None => None | Some s =>
  match p_sec w s with None => None | Some (sec, s) =>
  match s with
  | _ :: _ => None
  | [] =>
      if (1 <=? y) && (d <=? month_days y mo) && (sec <=? 59)
      then Some (Dt y mo d h mi sec) else None
  end end end end end end end end end end end end.
