(** librksv/url_receipt_helpers.py and the store of receipt_host.py. *)
From Verif Require Import PyBase World Codec PyFloat Algo Receipt Json KeyStore VerifyReceipt.
Open Scope N_scope.
Open Scope py_scope.

(** The class [A-Za-z0-9_-] of urlHashRegex, librksv/url_receipt_helpers.py:33-34 *)
Definition url_class (c : N) : bool := is_AZ c || is_az c || is_09 c || (c =? c_us) || (c =? c_dash).
Definition starts_class (s : str) : bool := match s with c :: _ => url_class c | [] => false end.

(** Does urlHashRegex match here; [prev] tells whether the character before is
    in the class. *)
Definition hash_here (prev : bool) (s : str) : bool :=
  negb prev && (List.length (firstn 11 s) =? 11)%nat && forallb url_class (firstn 11 s)
  && negb (starts_class (skipn 11 s)).

(** [urlHashRegex.findall(s)]: from left to right, going on behind each match. *)
Fixpoint find_hashes (skip : nat) (prev : bool) (s : str) : list str :=
  match s with
  | [] => []
  | c :: r =>
      match skip with
      | S k => find_hashes k (url_class c) r
      | O => if hash_here prev s then firstn 11 s :: find_hashes 10 (url_class c) r
             else find_hashes 0 (url_class c) r
      end
  end.

(** [matches[-1]] *)
Fixpoint last_of (l : list str) : option str :=
  match l with
  | [] => None
  | [x] => Some x
  | _ :: r => last_of r
  end.

(** librksv/url_receipt_helpers.py:35-52 getURLHashFromURL *)
Definition getURLHashFromURL (url : str) : option str :=
  match split_char c_hash url with
  | _ :: f :: _ => Some f
  | [u] => last_of (find_hashes 0 false u)
  | [] => None   (* str.split never returns the empty list *)
  end.

(** librksv/verify_receipt.py:279-297 with an absent hash: nothing equals None. *)
Definition verifyURLHashOpt (w : world) (r : receipt) (alg : str) (urlHash : option str) : result unit :=
  match urlHash with
  | Some h => verifyURLHash w r alg h
  | None => do qr <- toBasicCode r alg; do h <- r1_hash w qr; Err (InvalidURLHash (r_receiptId r))
  end.

(** librksv/url_receipt_helpers.py:54-58 getAndVerifyReceiptURL. [fetch] is what
    the network returns for a URL, i.e. getBasicCodeFromURL (lines 22-31). *)
Definition getAndVerifyReceiptURL (w : world) (v : verifier) (fetch : str -> result str) (url : str) : result unit :=
  do code <- fetch url;
  let urlHash := getURLHashFromURL url in
  do rp <- verifyBasicCode w v code;
  verifyURLHashOpt w (fst rp) (snd rp) urlHash.

(** receipt_host.py:72-75: the store filled from the receipts on standard input. *)
Fixpoint host_receipts (w : world) (store : list (str * str)) (lines : list str) : result (list (str * str)) :=
  match lines with
  | [] => Ok store
  | l :: r =>
      do rp <- fromJWSString w (strip (char_isspace w) l);
      do h <- toURLHash w (fst rp) (snd rp);
      do code <- toBasicCode (fst rp) (snd rp);
      host_receipts w (dict_set store h code) r
  end.
