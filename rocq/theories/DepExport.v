(** librksv/depexport.py, librksv/depparser.py:704-712 and the scripts split.py,
    merge.py and convert.py: streams of groups, and writing them as DEPs.

    A stream of groups is given by the groups it delivers and the exception it
    ends with, if any. *)
From Verif Require Import PyBase World Codec Receipt DepBase Json Pem DepParser.
Open Scope N_scope.
Open Scope py_scope.

(** The tuples of receipts, certificate and chain a stream consists of,
    librksv/depexport.py:64-76 *)
Record rgroup (A : Type) : Type := RGroup { rg_recs : list A; rg_cert : option cert; rg_chain : list cert }.
Arguments RGroup {A}. Arguments rg_recs {A}. Arguments rg_cert {A}. Arguments rg_chain {A}.

(** A receipt and the ID of its algorithm *)
Definition rtuple : Type := receipt * str.

(** A generator that applies a function to what another one delivers *)
Fixpoint s_map_list {A B} (f : A -> result B) (l : list A) (end_ : option exn) : stream B :=
  match l with
  | [] => ([], end_)
  | a :: r => match f a with
              | Err e => s_raise e
              | Ok b => s_cons b (s_map_list f r end_)
              end
  end.

(** [itertools.chain] of two and of several generators *)
Definition s_app {A} (s t : stream A) : stream A :=
  match snd s with
  | Some e => (fst s, Some e)
  | None => (fst s ++ fst t, snd t)
  end.
Definition s_chain {A} (l : list (stream A)) : stream A := fold_right s_app s_end l.

(** librksv/depparser.py:704-712 receiptGroupAdapter *)
Definition adaptReceipt (w : world) (b : bytes) : result rtuple :=
  do s <- expandDEPReceipt b; fromJWSString w s.
Definition adaptGroup (w : world) (g : dgroup) : result (rgroup rtuple) :=
  do rs <- mapM (adaptReceipt w) (g_recs g);
  Ok (RGroup rs (g_cert g) (g_chain g)).
Definition receiptGroupAdapter (w : world) (chunks : stream chunk) : stream (rgroup rtuple) :=
  s_map_list (adaptGroup w) (List.concat (fst chunks)) (snd chunks).

(** ** Streams *)

(** librksv/depexport.py:40-80 DEPStream: fromIterList, append, extend. Iterating
    delivers the groups. *)
Definition fromIterList {A} (l : list (stream (rgroup A))) : stream (rgroup A) := s_chain l.
Definition stream_append {A} (s : stream (rgroup A)) (recs : list A) (c : option cert) (ch : list cert) : stream (rgroup A) :=
  s_app s ([RGroup recs c ch], None).
Definition stream_extend {A} (s more : stream (rgroup A)) : stream (rgroup A) := s_app s more.

(** Comparison of certificates ([==]), and of lists of them *)
Definition cert_eqb (a b : option cert) : bool :=
  match a, b with
  | None, None => true
  | Some x, Some y => str_eqb x y
  | _, _ => false
  end.
Fixpoint chain_eqb (a b : list cert) : bool :=
  match a, b with
  | [], [] => true
  | x :: a', y :: b' => str_eqb x y && chain_eqb a' b'
  | _, _ => false
  end.

(** librksv/depexport.py:89-119 _ReceiptTupleStream: the receipts of a group that
    are still to be delivered, its certificate and its chain *)
Record inner (A : Type) : Type := Inner { in_backing : list A; in_cert : option cert; in_chain : list cert }.
Arguments Inner {A}. Arguments in_backing {A}. Arguments in_cert {A}. Arguments in_chain {A}.

(** librksv/depexport.py:82-131 MergingDEPStream: the groups that are still to be
    delivered, and the receipt streams that were handed out, of which the last is
    [_last]. *)
Record merging (A : Type) : Type := Merging { mg_backing : stream (rgroup A); mg_streams : list (inner A) }.
Arguments Merging {A}. Arguments mg_backing {A}. Arguments mg_streams {A}.

(** The result of [next] *)
Inductive got (X : Type) : Type := Got (x : X) | Stop | Raised (e : exn).
Arguments Got {X}. Arguments Stop {X}. Arguments Raised {X}.

Definition MergingDEPStream {A} (s : stream (rgroup A)) : merging A := Merging s [].

(** librksv/depexport.py:96-112 send of a receipt stream with the certificate [c].
    A generator that raised an exception is exhausted. The comparison of the
    chains compares the new chain with itself, as in the code. *)
Fixpoint inner_send {A} (c : option cert) (backing : list A) (gs : list (rgroup A)) (end_ : option exn)
  : got A * list A * stream (rgroup A) :=
  match backing with
  | a :: r => (Got a, r, (gs, end_))
  | [] =>
      match gs with
      | [] => (match end_ with Some e => Raised e | None => Stop end, [], s_end)
      | g :: r =>
          if cert_eqb c (rg_cert g) && chain_eqb (rg_chain g) (rg_chain g)
          then inner_send c (rg_recs g) r end_
          else (Stop, [], (g :: r, end_))
      end
  end.

Fixpoint replace_nth {X} (n : nat) (l : list X) (x : X) : list X :=
  match n, l with
  | _, [] => []
  | O, _ :: r => x :: r
  | S n', y :: r => y :: replace_nth n' r x
  end.

(** [next] of the [i]-th receipt stream *)
Definition next_receipt {A} (m : merging A) (i : nat) : option (got A * merging A) :=
  match nth_error (mg_streams m) i with
  | None => None
  | Some s =>
      let '(x, backing, rest) := inner_send (in_cert s) (in_backing s) (fst (mg_backing m)) (snd (mg_backing m)) in
      Some (x, Merging rest (replace_nth i (mg_streams m) (Inner backing (in_cert s) (in_chain s))))
  end.

Definition last_stream {A} (l : list (inner A)) : option (inner A) :=
  match rev l with [] => None | s :: _ => Some s end.

(** librksv/depexport.py:121-131 send. A new group is returned as the index of its
    receipt stream, with its certificate and its chain. *)
Fixpoint outer_send {A} (gs : list (rgroup A)) (end_ : option exn) (streams : list (inner A))
  : got (nat * option cert * list cert) * merging A :=
  match gs with
  | [] => (match end_ with Some e => Raised e | None => Stop end, Merging s_end streams)
  | g :: r =>
      let fresh := (Got (List.length streams, rg_cert g, rg_chain g),
                    Merging (r, end_) (streams ++ [Inner (rg_recs g) (rg_cert g) (rg_chain g)])) in
      match last_stream streams with
      | None => fresh
      | Some s =>
          if negb (cert_eqb (in_cert s) (rg_cert g)) || negb (chain_eqb (in_chain s) (rg_chain g)) then fresh
          else outer_send r end_ (removelast streams ++ [Inner (in_backing s ++ rg_recs g) (in_cert s) (in_chain s)])
      end
  end.
Definition next_group {A} (m : merging A) : got (nat * option cert * list cert) * merging A :=
  outer_send (fst (mg_backing m)) (snd (mg_backing m)) (mg_streams m).

(** *** Consumers *)

(** All receipts of a stream, one after the other *)
Fixpoint drain_receipts {A} (fuel : nat) (m : merging A) (i : nat) : option (list A * option exn * merging A) :=
  match fuel with
  | O => None
  | S f =>
      match next_receipt m i with
      | None => None
      | Some (Got a, m') =>
          match drain_receipts f m' i with
          | Some (l, e, m'') => Some (a :: l, e, m'')
          | None => None
          end
      | Some (Stop, m') => Some ([], None, m')
      | Some (Raised e, m') => Some ([], Some e, m')
      end
  end.

(** The way the exporters read: group by group, the receipts of each group before
    the next group. An exception ends it. *)
Fixpoint drain_groups {A} (fuel : nat) (m : merging A) : option (stream (rgroup A)) :=
  match fuel with
  | O => None
  | S f =>
      match next_group m with
      | (Stop, _) => Some s_end
      | (Raised e, _) => Some (s_raise e)
      | (Got (i, c, ch), m') =>
          match drain_receipts fuel m' i with
          | None => None
          | Some (l, Some e, _) => Some ([RGroup l c ch], Some e)
          | Some (l, None, m'') =>
              match drain_groups f m'' with
              | None => None
              | Some s => Some (s_cons (RGroup l c ch) s)
              end
          end
      end
  end.

(** The number of calls a stream allows *)
Definition work {A} (gs : list (rgroup A)) : nat := list_sum (map (fun g => S (List.length (rg_recs g))) gs).

(** What an exporter reads from a MergingDEPStream. The fuel always suffices
    (MergeFacts.v). *)
Definition read_in_turn {A} (s : stream (rgroup A)) : option (stream (rgroup A)) :=
  drain_groups (S (work (fst s))) (MergingDEPStream s).

(** All groups first, as [list(stream)] does *)
Fixpoint collect_groups {A} (fuel : nat) (m : merging A) : option (list (nat * option cert * list cert) * option exn * merging A) :=
  match fuel with
  | O => None
  | S f =>
      match next_group m with
      | (Stop, m') => Some ([], None, m')
      | (Raised e, m') => Some ([], Some e, m')
      | (Got x, m') =>
          match collect_groups f m' with
          | Some (l, e, m'') => Some (x :: l, e, m'')
          | None => None
          end
      end
  end.

(** ** Exporters *)

(** librksv/depexport.py:203-210 mkdict *)
Definition exportGroup (w : world) (g : rgroup rtuple) : result json :=
  do recs <- mapM (fun r : rtuple => toJWSString (fst r) (snd r)) (rg_recs g);
  Ok (JDict [(k_cert, JStr (match rg_cert g with Some c => exportCertToPEM w c | None => [] end));
             (k_certs, JList (map (fun c => JStr (exportCertToPEM w c)) (rg_chain g)));
             (k_recs, JList (map JStr recs))]).

(** librksv/depexport.py:202-219 DEPExporter.export with the given extra elements
    and [output_generator_wrapper=list], and librksv/depexport.py:221-238
    JSONExporter.export, the text of which is identified with the value it
    encodes. An exception of the stream comes after those of the groups delivered
    before it. *)
Definition with_extra (groups : json) (extra : list (str * json)) : json :=
  JDict (fold_left (fun d kv => dict_set d (fst kv) (snd kv)) extra [(k_bg, groups)]).
Definition export (w : world) (s : stream (rgroup rtuple)) (extra : list (str * json)) : result json :=
  do gs <- mapM (exportGroup w) (fst s);
  match snd s with
  | Some e => Err e
  | None => Ok (with_extra (JList gs) extra)
  end.

(** librksv/depexport.py:201-218 DEPExporter.export with the default
    [output_generator_wrapper=id]: the generators are not run, but replaced by
    their identities. *)
Definition export_default (identity : Z) (extra : list (str * json)) : json := with_extra (JInt identity) extra.

(** librksv/depexport.py:241-259 CSVExporter.export *)
Definition csv_header : str :=
  lit "Alg+ZDA;Register ID;Receipt ID;Date+Time;Sum A;Sum B;Sum C;Sum D;Sum E;Turnover Counter;Cert. Serial;Chaining Value;Signature".
Definition exportCSV (s : stream (rgroup rtuple)) : result str :=
  do lines <- mapM (fun r : rtuple => toCSV (fst r) (snd r)) (flat_map rg_recs (fst s));
  match snd s with
  | Some e => Err e
  | None => Ok (csv_header ++ List.concat (map (fun l => c_nl :: l) lines))
  end.

(** ** Scripts *)

(** split.py:49-61: the files that are written, and the exception that ends the
    script. [kind] is the parser that is chosen for the standard input. *)
Definition split_py (w : world) (kind : parser_kind) (doc : json) (chunksize : nat) : stream json :=
  let chunks := parse_inc w kind doc chunksize in
  s_map_list (fun c => export w (receiptGroupAdapter w ([c], None)) []) (fst chunks) (snd chunks).

(** merge.py:54-78: the DEP that is written. Files are seekable. *)
Definition merge_py (w : world) (merge : bool) (chunksize : nat) (docs : list json) : option (result json) :=
  let s := fromIterList (map (fun doc => receiptGroupAdapter w (parse_inc w P_file doc chunksize)) docs) in
  match (if merge then read_in_turn s else Some s) with
  | None => None
  | Some s => Some (export w s [])
  end.

(** convert.py:44-49, 57-59 json2csv. The text ends with a line feed. *)
Definition json2csv (w : world) (chunksize : nat) (doc : json) : result str :=
  do s <- exportCSV (receiptGroupAdapter w (parse_inc w P_certless doc chunksize));
  Ok (s ++ [c_nl]).

(** The lines of a text file, each with its line feed, if any. Carriage returns
    are translated to line feeds. *)
Fixpoint universal_newlines (s : str) : str :=
  match s with
  | [] => []
  | c :: r =>
      if c =? 13 then
        c_nl :: match r with
                | n :: r' => if n =? c_nl then universal_newlines r' else universal_newlines r
                | [] => []
                end
      else c :: universal_newlines r
  end.
Fixpoint file_lines (s : str) : list str :=
  match s with
  | [] => []
  | c :: r =>
      if c =? c_nl then [c] :: file_lines r
      else match file_lines r with
           | [] => [[c]]
           | l :: ls => (c :: l) :: ls
           end
  end.

(** convert.py:50-53, 57-59 csv2json: [next] raises StopIteration for an empty file. *)
Definition csv2json (w : world) (text : str) : result json :=
  match file_lines (universal_newlines text) with
  | [] => Err PyStopIteration
  | _ :: lines =>
      do rs <- mapM (fun l => fromCSV w (strip (char_isspace w) l)) lines;
      export w ([RGroup rs None []], None) []
  end.
