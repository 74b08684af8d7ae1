(** cert_extract.py together with key_store.py. *)
From Verif Require Import PyBase World Json KeyStore KeyStoreCli SpecDep SpecCluster SpecDoc SpecKeyStoreCli StateArgv KeyArgv SpecKeyArgv ExtractArgv.
Open Scope N_scope.

(** The name of a file in a directory *)
Definition path (out name : str) : str := out ++ lit "/" ++ name.

(** The files of the directory are there to be read. *)
Definition shows (fs : files) (out : str) (dir : list (str * str)) : Prop :=
  forall name t, content_of dir name = Some t -> f_text fs (path out name) = Ok t.

(** The calls of key_store.py that add the files of the certificates [l] *)
Definition add_calls (w : world) (store out : str) (l : list cert) (stdin : str) : list (list str * str) :=
  map (fun c => ([store; lit "add"; path out (crt_name w c)], stdin)) l.

(** No two certificates of the DEP have the same serial number, but for the sign. *)
Definition dep_serials_apart (w : world) (gs : list group) : Prop :=
  forall c c', dep_cert gs c -> dep_cert gs c' -> Z.abs (w_serial w c') = Z.abs (w_serial w c) -> c' = c.
