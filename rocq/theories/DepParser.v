(** librksv/depparser.py: the DEP parsers. *)
From Verif Require Import PyBase World Codec PyFloat Algo Receipt DepBase Json Pem.
Open Scope N_scope.
Open Scope py_scope.

(** A group tuple and a chunk as returned by the parsers, see
    librksv/depparser.py:386-405. *)
Record dgroup : Type := DGroup { g_recs : list bytes; g_cert : option cert; g_chain : list cert }.
Definition chunk := list dgroup.

(** What a generator yields, and the exception that ends it, if any. *)
Definition stream (A : Type) : Type := list A * option exn.
Definition s_cons {A} (a : A) (s : stream A) : stream A := (a :: fst s, snd s).
Definition s_raise {A} (e : exn) : stream A := ([], Some e).
Definition s_end {A} : stream A := ([], None).

(** Names of elements *)
Definition k_bg : str := lit "Belege-Gruppe".
Definition k_cert : str := lit "Signaturzertifikat".
Definition k_certs : str := lit "Zertifizierungsstellen".
Definition k_recs : str := lit "Belege-kompakt".
Definition k_item : str := lit "item".
Definition p_item : str := lit "Belege-Gruppe.item".
Definition p_cert : str := lit "Belege-Gruppe.item.Signaturzertifikat".
Definition p_certs : str := lit "Belege-Gruppe.item.Zertifizierungsstellen".
Definition p_certs_item : str := lit "Belege-Gruppe.item.Zertifizierungsstellen.item".
Definition p_recs : str := lit "Belege-Gruppe.item.Belege-kompakt".
Definition p_recs_item : str := lit "Belege-Gruppe.item.Belege-kompakt.item".

(** ** The event stream of ijson

    ijson.parse reports every part of a document with the path that leads to
    it, its elements joined by dots; elements of arrays have the name "item".
    Only syntactically correct documents are modelled (ijson raises JSONError
    for others, which IncrementalDEPParser.parse turns into a
    DEPParseException). *)
Inductive event : Type :=
| E_start_map | E_end_map | E_map_key (k : str) | E_start_array | E_end_array
| E_string (s : str)
| E_scalar.  (* number, boolean, null *)

Definition dotted (path : list str) : str := join [c_dot] path.

(** [path] is in reverse. *)
Fixpoint events (path : list str) (j : json) : list (str * event) :=
  match j with
  | JNull | JBool _ | JInt _ | JFloat _ => [(dotted (rev path), E_scalar)]
  | JStr s => [(dotted (rev path), E_string s)]
  | JList l =>
      (dotted (rev path), E_start_array)
      :: (fix go l := match l with
                      | [] => [(dotted (rev path), E_end_array)]
                      | x :: r => events (k_item :: path) x ++ go r
                      end) l
  | JDict d =>
      (dotted (rev path), E_start_map)
      :: (fix go d := match d with
                      | [] => [(dotted (rev path), E_end_map)]
                      | (k, x) :: r =>
                          (dotted (rev path), E_map_key k) :: events (k :: path) x ++ go r
                      end) d
  end.

(** ijson.items for a non-empty prefix: the parts of a document with this path. *)
Fixpoint items (prefix : str) (path : list str) (j : json) : list json :=
  if str_eqb (dotted (rev path)) prefix then [load j]
  else match j with
       | JList l =>
           (fix go l := match l with
                        | [] => []
                        | x :: r => items prefix (k_item :: path) x ++ go r
                        end) l
       | JDict d =>
           (fix go d := match d with
                        | [] => []
                        | (k, x) :: r => items prefix (k :: path) x ++ go r
                        end) d
       | _ => []
       end.

(** ** The parser states, librksv/depparser.py:117-331

    The state objects form a stack (attribute upper) and share the chunk and
    the data of the current group. The whole stack is one record here: [d_mode]
    is the class of the topmost object, the flags are the attributes of the
    objects below it. *)
Inductive mode := M_root | M_root_map | M_list | M_group | M_certs | M_recs.

Record dstate : Type := DState {
  d_mode : mode;
  d_root_seen : bool;
  d_groups_seen : bool;
  d_curIdx : nat;               (* DEPStateBGList.curIdx *)
  d_recs_seen : bool;
  d_cert_seen : bool;
  d_list_seen : bool;
  d_chunk : list dgroup;
  d_cert : option cert;         (* WIPData *)
  d_chain : option (list cert);
  d_recs : list bytes
}.

Definition d_init : dstate := DState M_root false false 0 false false false [] None None [].

Definition set_mode (d : dstate) (m : mode) : dstate :=
  DState m (d_root_seen d) (d_groups_seen d) (d_curIdx d) (d_recs_seen d) (d_cert_seen d)
    (d_list_seen d) (d_chunk d) (d_cert d) (d_chain d) (d_recs d).

(** librksv/depparser.py:183-191 mergeIntoChunk *)
Definition mergeIntoChunk (d : dstate) : dstate :=
  match d_recs d with
  | [] => d
  | recs =>
      DState (d_mode d) (d_root_seen d) (d_groups_seen d) (d_curIdx d) (d_recs_seen d)
        (d_cert_seen d) (d_list_seen d)
        (d_chunk d ++ [DGroup recs (d_cert d) (match d_chain d with None => [] | Some l => l end)])
        (d_cert d) (d_chain d) []
  end.

(** librksv/depparser.py:214-219 (root), 227-243 (root map), 250-260 (groups),
    269-307 (group), 310-319 (certificates), 322-331 (receipts) *)
Definition d_parse (w : world) (d : dstate) (prefix : str) (e : event) : result dstate :=
  match d_mode d with
  | M_root =>
      match str_eqb prefix [], e with
      | true, E_start_map =>
          check negb (d_root_seen d) else MalformedDEP;
          Ok (DState M_root_map true false 0 false false false (d_chunk d) None None [])
      | _, _ => Err MalformedDEP
      end
  | M_root_map =>
      match str_eqb prefix [], e with
      | true, E_end_map =>
          check d_groups_seen d else MissingDEPElement;
          Ok (set_mode d M_root)
      | _, _ =>
          if str_eqb prefix k_bg then
            match e with
            | E_start_array =>
                check negb (d_groups_seen d) else MalformedDEP;
                Ok (DState M_list (d_root_seen d) true 0 false false false (d_chunk d) None None [])
            | _ => Err MalformedDEP
            end
          else Ok d
      end
  | M_list =>
      match str_eqb prefix k_bg, e with
      | true, E_end_array => Ok (set_mode d M_root_map)
      | _, _ =>
          match str_eqb prefix p_item, e with
          | true, E_start_map =>
              Ok (DState M_group (d_root_seen d) (d_groups_seen d) (S (d_curIdx d))
                    false false false (d_chunk d) None None [])
          | _, _ => Err MalformedDEPElement
          end
      end
  | M_group =>
      match str_eqb prefix p_item, e with
      | true, E_end_map =>
          check d_cert_seen d else MissingDEPElement;
          check d_list_seen d else MissingDEPElement;
          check d_recs_seen d else MissingDEPElement;
          Ok (set_mode (mergeIntoChunk d) M_list)
      | _, _ =>
          if str_eqb prefix p_cert then
            check negb (d_cert_seen d) else DuplicateDEPElement;
            match e with
            | E_string s =>
                do c <- (if nonempty s then do c <- parseDEPCert w s; Ok (Some c) else Ok None);
                Ok (DState M_group (d_root_seen d) (d_groups_seen d) (d_curIdx d) (d_recs_seen d)
                      true (d_list_seen d) (d_chunk d) c (d_chain d) (d_recs d))
            | _ => Err MalformedDEPElement
            end
          else if str_eqb prefix p_certs then
            check negb (d_list_seen d) else DuplicateDEPElement;
            match e with
            | E_start_array =>
                Ok (DState M_certs (d_root_seen d) (d_groups_seen d) (d_curIdx d) (d_recs_seen d)
                      (d_cert_seen d) true (d_chunk d) (d_cert d) (Some []) (d_recs d))
            | _ => Err MalformedDEPElement
            end
          else if str_eqb prefix p_recs then
            check negb (d_recs_seen d) else DuplicateDEPElement;
            match e with
            | E_start_array =>
                Ok (DState M_recs (d_root_seen d) (d_groups_seen d) (d_curIdx d) true
                      (d_cert_seen d) (d_list_seen d) (d_chunk d) (d_cert d) (d_chain d) (d_recs d))
            | _ => Err MalformedDEPElement
            end
          else Ok d
      end
  | M_certs =>
      match str_eqb prefix p_certs, e with
      | true, E_end_array => Ok (set_mode d M_group)
      | _, _ =>
          match str_eqb prefix p_certs_item, e with
          | true, E_string s =>
              do c <- parseDEPCert w s;
              Ok (DState M_certs (d_root_seen d) (d_groups_seen d) (d_curIdx d) (d_recs_seen d)
                    (d_cert_seen d) (d_list_seen d) (d_chunk d) (d_cert d)
                    (Some (match d_chain d with None => [] | Some l => l end ++ [c])) (d_recs d))
          | _, _ => Err MalformedDEPElement
          end
      end
  | M_recs =>
      match str_eqb prefix p_recs, e with
      | true, E_end_array => Ok (set_mode d M_group)
      | _, _ =>
          match str_eqb prefix p_recs_item, e with
          | true, E_string s =>
              do b <- shrinkDEPReceipt s;
              Ok (DState M_recs (d_root_seen d) (d_groups_seen d) (d_curIdx d) (d_recs_seen d)
                    (d_cert_seen d) (d_list_seen d) (d_chunk d) (d_cert d) (d_chain d)
                    (d_recs d ++ [b]))
          | _, _ => Err MalformedDEPElement
          end
      end
  end.

(** Does the class of the topmost object have data of an unfinished group. *)
Definition incomplete (m : mode) : bool :=
  match m with M_root | M_root_map | M_list => false | _ => true end.

(** librksv/depparser.py:144-151 currentChunksize, ready, 193-197 ready *)
Definition currentChunksize (d : dstate) : nat :=
  list_sum (map (fun g => List.length (g_recs g)) (d_chunk d)).
Definition d_ready (m : mode) (chunksize : nat) (d : dstate) : bool :=
  if (chunksize =? 0)%nat then false
  else (chunksize <=? currentChunksize d
                      + if incomplete m then List.length (d_recs d) else 0)%nat.

(** librksv/depparser.py:153-161 and 199-201 getChunk *)
Definition getChunk (m : mode) (d : dstate) : chunk * dstate :=
  let d := if incomplete m then mergeIntoChunk d else d in
  if (currentChunksize d <=? 0)%nat then ([], d)
  else (d_chunk d,
        DState (d_mode d) (d_root_seen d) (d_groups_seen d) (d_curIdx d) (d_recs_seen d)
          (d_cert_seen d) (d_list_seen d) [] (d_cert d) (d_chain d) (d_recs d)).

(** librksv/depparser.py:179-183 needCrt: the index of the group lacking data *)
Definition needCrt (m : mode) (d : dstate) : option nat :=
  if incomplete m then
    match d_cert d, d_chain d with
    | Some _, Some _ => None
    | _, _ => Some (Nat.pred (d_curIdx d))
    end
  else None.

(** ** The incremental parsers *)
Inductive parser_kind := P_stream | P_certless | P_file.

(** Iteration over the elements of a value. *)
Definition iter (j : json) : result (list json) :=
  match j with
  | JList l => Ok l
  | JStr s => Ok (map (fun c => JStr [c]) s)
  | JDict d => Ok (map (fun kv => JStr (fst kv)) d)
  | _ => Err PyTypeError
  end.

(** librksv/depparser.py:366-380 parseDEPCert *)
Definition parseDEPCertJ (w : world) (j : json) : result cert :=
  match j with JStr s => parseDEPCert w s | _ => Err MalformedDEPCertificate end.

(** [parseDEPCert(cert_str) if cert_str != '' else None] *)
Definition opt_cert (w : world) (j : json) : result (option cert) :=
  match j with
  | JStr [] => Ok None
  | _ => do c <- parseDEPCertJ w j; Ok (Some c)
  end.

(** [l[i]] *)
Definition index {A} (l : list A) (i : nat) : result A :=
  match nth_error l i with Some x => Ok x | None => Err PyIndexError end.

(** librksv/depparser.py:491-494, 509-511 and 527-547 _needCerts. FileDEPParser
    caches the elements it looks up; the file does not change meanwhile. *)
Definition needCerts (w : world) (kind : parser_kind) (doc : json) (groupidx : nat) (d : dstate)
  : result dstate :=
  match kind with
  | P_stream => Err MalformedDEP
  | P_certless => Ok d
  | P_file =>
      do cs <- index (items p_cert [] doc) groupidx;
      do cl <- index (items p_certs [] doc) groupidx;
      do c <- opt_cert w cs;
      do l <- iter cl;
      do chain <- mapM (parseDEPCertJ w) l;
      Ok (DState (d_mode d) (d_root_seen d) (d_groups_seen d) (d_curIdx d) (d_recs_seen d)
            (d_cert_seen d) (d_list_seen d) (d_chunk d) c (Some chain) (d_recs d))
  end.

(** librksv/depparser.py:446-473 parse: the loop *)
Fixpoint inc_loop (w : world) (kind : parser_kind) (doc : json) (chunksize : nat)
    (evs : list (str * event)) (d : dstate) (got : bool) : stream chunk :=
  match evs with
  | [] =>
      match fst (getChunk (d_mode d) d) with
      | [] => if got then s_end else s_raise MalformedDEP
      | last => s_cons last s_end
      end
  | (prefix, e) :: r =>
      match d_parse w d prefix e with
      | Err x => s_raise x
      | Ok d' =>
          let m := d_mode d in
          if d_ready m chunksize d' then
            match match needCrt m d' with
                  | None => Ok d'
                  | Some i => needCerts w kind doc i d'
                  end with
            | Err x => s_raise x
            | Ok d' =>
                let cd := getChunk m d' in
                s_cons (fst cd) (inc_loop w kind doc chunksize r (snd cd) true)
            end
          else inc_loop w kind doc chunksize r d' got
      end
  end.

Definition parse_inc (w : world) (kind : parser_kind) (doc : json) (chunksize : nat) : stream chunk :=
  inc_loop w kind doc chunksize (events [] doc) d_init false.

(** ** DictDEPParser, librksv/depparser.py:555-679 *)

(** librksv/depparser.py:555-569 totalRecsInDictDEP on a dictionary *)
Definition nrecs_of (g : json) : nat :=
  match g with
  | JDict d => match dict_get d k_recs with Some (JList l) => List.length l | _ => 0 end
  | _ => 0
  end.
Definition totalRecsInDictDEP (dep : list (str * json)) : nat :=
  match dict_get dep k_bg with
  | Some (JList l) => list_sum (map nrecs_of l)
  | _ => 0
  end.

(** shrinkDEPReceipt of any value: only texts can be encoded. *)
Definition shrinkJ (j : json) : result bytes :=
  match j with JStr s => shrinkDEPReceipt s | _ => Err PyAttributeError end.

(** librksv/depparser.py:591-626 _parseDEPGroup. The receipts are a generator;
    the elements it has yet to convert are returned. *)
Definition parseDEPGroup (w : world) (g : json) : result (list json * option cert * list cert) :=
  match g with
  | JDict d =>
      match dict_get d k_recs, dict_get d k_cert, dict_get d k_certs with
      | Some jr, Some jc, Some jl =>
          do recs <- iter jr;
          match jc with
          | JStr _ =>
              match jl with
              | JList l =>
                  do c <- opt_cert w jc;
                  do chain <- mapM (parseDEPCertJ w) l;
                  Ok (recs, c, chain)
              | _ => Err MalformedDEPElement
              end
          | _ => Err MalformedDEPElement
          end
      | _, _, _ => Err MissingDEPElement
      end
  | _ => Err MalformedDEPElement
  end.

(** librksv/depparser.py:629-637: one chunk per group *)
Fixpoint gen_groups (w : world) (groups : list json) : stream chunk :=
  match groups with
  | [] => s_end
  | g :: r =>
      match (do p <- parseDEPGroup w g;
             do recs <- mapM shrinkJ (fst (fst p));
             Ok (DGroup recs (snd (fst p)) (snd p))) with
      | Err x => s_raise x
      | Ok dg => match g_recs dg with
                 | [] => gen_groups w r
                 | _ => s_cons [dg] (gen_groups w r)
                 end
      end
  end.

(** librksv/depparser.py:644-658: the receipts of one group. Returns the chunks
    completed, the remaining groups of the chunk in progress, its length and the
    receipts of this group in it; or an exception. *)
Fixpoint gen_recs (chunksize : nat) (c : option cert) (l : list cert) (recs : list json)
    (chunk_ : chunk) (chunklen : nat) (nextrecs : list bytes)
  : list chunk * result (chunk * nat * list bytes) :=
  match recs with
  | [] => ([], Ok (chunk_, chunklen, nextrecs))
  | j :: r =>
      match shrinkJ j with
      | Err x => ([], Err x)
      | Ok b =>
          let nextrecs := nextrecs ++ [b] in
          let chunklen := S chunklen in
          if (chunksize <=? chunklen)%nat then
            let res := gen_recs chunksize c l r [] 0 [] in
            ((chunk_ ++ [DGroup nextrecs c l]) :: fst res, snd res)
          else gen_recs chunksize c l r chunk_ chunklen nextrecs
      end
  end.

(** librksv/depparser.py:639-663 *)
Fixpoint gen_chunks (w : world) (chunksize : nat) (groups : list json) (chunk_ : chunk) (chunklen : nat)
  : stream chunk :=
  match groups with
  | [] => if (0 <? chunklen)%nat then s_cons chunk_ s_end else s_end
  | g :: r =>
      match parseDEPGroup w g with
      | Err x => s_raise x
      | Ok (recs, c, l) =>
          match gen_recs chunksize c l recs chunk_ chunklen [] with
          | (done, Err x) => (done, Some x)
          | (done, Ok (chunk', chunklen', nextrecs)) =>
              let chunk' := match nextrecs with
                            | [] => chunk'
                            | _ => chunk' ++ [DGroup nextrecs c l]
                            end in
              let rest := gen_chunks w chunksize r chunk' chunklen' in
              (done ++ fst rest, snd rest)
          end
      end
  end.

Definition groupChunkGen (w : world) (chunksize : nat) (groups : list json) : stream chunk :=
  if (chunksize =? 0)%nat then gen_groups w groups else gen_chunks w chunksize groups [] 0.

(** [int(ceil(float(n) / p))] for a positive [p]; exact as the number of receipts
    is below 2^53. *)
Definition ceil_div (n p : nat) : nat := Nat.div (n + Nat.pred p) p.

(** librksv/depparser.py:660-679 parse *)
Definition parse_dict (w : world) (nparts : nat) (dep : json) (chunksize : nat) : stream chunk :=
  match dep with
  | JDict d =>
      match dict_get d k_bg with
      | None => s_raise MissingDEPElement
      | Some (JList (g :: gs)) =>
          let chunksize := if (1 <? nparts)%nat && (chunksize =? 0)%nat
                           then ceil_div (totalRecsInDictDEP d) nparts
                           else chunksize in
          let s := groupChunkGen w chunksize (g :: gs) in
          match s with
          | ([], None) => s_raise MalformedDEP
          | _ => s
          end
      | Some _ => s_raise MalformedDEPElement
      end
  | _ => s_raise MalformedDEP
  end.

(** librksv/depparser.py:704-712 receiptGroupAdapter *)
Definition adapt_group (w : world) (g : dgroup) : result (list (receipt * str) * option cert * list cert) :=
  do recs <- mapM (fun b => do s <- expandDEPReceipt b; fromJWSString w s) (g_recs g);
  Ok (recs, g_cert g, g_chain g).
