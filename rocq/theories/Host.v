(** receipt_host.py with DEPs, its answers, and what clients make of them. *)
From Verif Require Import PyBase World Codec Receipt Json DepBase DepParser Url.
Open Scope N_scope.
Open Scope py_scope.

(** receipt_host.py:67-71: the store filled from the receipts of a DEP as they are
    kept in memory. *)
Fixpoint host_compact (w : world) (store : list (str * str)) (recs : list bytes) : result (list (str * str)) :=
  match recs with
  | [] => Ok store
  | cr :: rest =>
      do t <- expandDEPReceipt cr;
      do rp <- fromJWSString w t;
      do h <- toURLHash w (fst rp) (snd rp);
      do code <- toBasicCode (fst rp) (snd rp);
      host_compact w (dict_set store h code) rest
  end.

(** receipt_host.py:63-71: mode "dep". Receipts are stored before the next chunk is
    read, so that the first exception is the one that ends the program. *)
Definition host_dep (w : world) (chunksize : nat) (doc : json) : result (list (str * str)) :=
  let s := parse_inc w P_certless doc chunksize in
  do store <- host_compact w [] (flat_map g_recs (List.concat (fst s)));
  match snd s with None => Ok store | Some e => Err e end.

(** An HTTP answer: status and JSON document *)
Record response : Type := Response { status : N; body : json }.

(** receipt_host.py:40-49 get_url_hash and not_found *)
Definition get_url_hash (store : list (str * str)) (url_hash : str) : response :=
  match dict_get store url_hash with
  | Some code => Response 200 (JDict [(lit "code", JStr code)])
  | None => Response 404 (JDict [(lit "error", JStr (lit "Not found"))])
  end.

(** librksv/url_receipt_helpers.py:22-31 getBasicCodeFromURL for an answer of the
    server. HTTPError is not told from other exceptions; a code that is no text
    cannot be split, which is a TypeError or AttributeError later. *)
Definition getBasicCode (r : response) : result str :=
  if 400 <=? status r then Err PyException
  else match body r with
       | JDict d => match dict_get d (lit "code") with
                    | Some (JStr s) => Ok s
                    | Some _ => Err PyTypeError
                    | None => Err PyKeyError
                    end
       | _ => Err PyTypeError
       end.
