(** The command line of verify.py as its usage message describes it. *)
From Verif Require Import PyBase World Codec Json KeyStore State Verify Cli SpecCli Argv.
Open Scope N_scope.

Definition number (w : world) (t : str) (z : Z) : Prop := py_int w 10 t = Some z.

(** [state [continue|<n>]] [par <n>] [chunksize <n>] [json] *)
Inductive state_words : bool -> list str -> Prop :=
| sw_no : state_words false []
| sw_state : state_words true [lit "state"].
Inductive register_words (w : world) : register_arg -> list str -> Prop :=
| rw_none : register_words w A_none []
| rw_continue : register_words w A_continue [lit "continue"]
| rw_index t i : number w t i -> t <> lit "continue" -> register_words w (A_index i) [t].
Inductive option_words (w : world) (name : str) (default : Z) : Z -> list str -> Prop :=
| ow_default : option_words w name default default []
| ow_given t z : number w t z -> option_words w name default z [name; t].
Inductive json_words : list str -> Prop :=
| jw_no : json_words []
| jw_json : json_words [lit "json"].

(** The default chunk size *)
Definition default_size (w : world) (env : option str) (d : Z) : Prop :=
  match env with None => d = 100000%Z | Some s => number w s d end.

(** The parts of a command line and what they mean *)
Definition parts (w : world) (env : option str) (a : verify_args) (st rg pa ch js : list str) : Prop :=
  exists d p c, default_size w env d /\ state_words (va_state a) st /\ register_words w (va_register a) rg
    /\ option_words w (lit "par") 1 p pa /\ (1 <= p)%Z /\ va_par a = Z.to_nat p
    /\ option_words w (lit "chunksize") d c ch /\ (0 <= c)%Z /\ va_chunksize a = Z.to_nat c /\ json_words js.

(** Documented: the number of a register and continue are given with a state only. *)
Definition documented (w : world) (env : option str) (args : list str) (a : verify_args) (store dep : str) : Prop :=
  exists st rg pa ch js, parts w env a st rg pa ch js /\ args = st ++ rg ++ pa ++ ch ++ js ++ [store; dep]
    /\ (va_state a = false -> va_register a = A_none).

(** What is understood: any such parts, but a word that can be the beginning of a part is
    taken as such. *)
Definition first_is (P : str -> Prop) (l : list str) : Prop := exists x r, l = x :: r /\ P x.
Definition understood (w : world) (env : option str) (args : list str) (a : verify_args) (store dep : str) : Prop :=
  exists st rg pa ch js, parts w env a st rg pa ch js /\ args = st ++ rg ++ pa ++ ch ++ js ++ [store; dep]
    /\ (st = [] -> ~ first_is (eq (lit "state")) (rg ++ pa ++ ch ++ js ++ [store; dep]))
    /\ (rg = [] -> ~ first_is (fun x => x = lit "continue" \/ exists i, number w x i) (pa ++ ch ++ js ++ [store; dep]))
    /\ (pa = [] -> ~ first_is (eq (lit "par")) (ch ++ js ++ [store; dep]))
    /\ (ch = [] -> ~ first_is (eq (lit "chunksize")) (js ++ [store; dep]))
    /\ (js = [] -> store <> lit "json").

(** Names that cannot be mistaken for something else *)
Definition plain_name (w : world) (s : str) : Prop :=
  ~ In s [lit "state"; lit "continue"; lit "par"; lit "chunksize"; lit "json"] /\ forall i, ~ number w s i.

(** The DEP in the file is accepted with the keys in the store and the state on standard
    input. *)
Definition accepted_files (w : world) (b : backend) (read : str -> result json) (stdin : result json) (a : verify_args) (store dep : str)
    (out : option json) : Prop :=
  exists s d i key ks c idx c', read store = Ok s /\ read dep = Ok d /\ (va_state a = true -> stdin = Ok i)
    /\ loadKeyFromJson (load s) = Ok key /\ readStoreFromJson w (load s) = Ok ks
    /\ starts_from b a i c /\ chosen a c idx /\ verifyDEP w (load d) ks key c idx = (c', None)
    /\ out = if va_state a then Some (cluster_to_json c') else None.
