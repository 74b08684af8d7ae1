(** cert_extract.py and key_store.py in the toy world. *)
From Coq Require Import Lia.
From Verif Require Import PyBase World Codec SpecReceipt Json Pem KeyStore State DepParser Verify DepExport SpecCluster SpecChunks SpecDoc KeyStoreCli SpecKeyStoreCli StateArgv SpecStateArgv KeyArgv SpecKeyArgv
  ExtractArgv SpecExtractArgv ExtractArgvFacts ExampleWorld ExampleReceipts ExampleDep ExampleExport ExampleKeys ExampleKeyStoreCli ExampleStateArgv ExampleKeyArgv.
Open Scope N_scope.

Definition ex_enter (out : str) : result (list (str * str)) := if str_eqb out (lit "certs") then Ok [(lit "notes", lit "mine")] else Err PyException.
Definition ex_xdir : list (str * str) := (lit "notes", lit "mine") :: ex_late_dir.
Definition ex_xfiles : files :=
  Files (fun _ => Err PyException)
    (fun n => if str_eqb n (lit "certs/5a.crt") then match content_of ex_late_dir (lit "5a.crt") with Some t => Ok t | None => Err PyException end
              else if str_eqb n (lit "certs/5b.crt") then match content_of ex_late_dir (lit "5b.crt") with Some t => Ok t | None => Err PyException end
              else if str_eqb n (lit "certs/notes") then Ok (lit "mine") else Err PyException).
Lemma ex_xrun : extract_program toy_world 3 ex_enter ex_late [lit "certs"] = X_end false (Some (lit "certs", ex_xdir))
  /\ extract_program toy_world 3 ex_enter ex_late [lit "file"] = X_end true None /\ extract_program toy_world 3 ex_enter ex_late [] = X_usage.
Proof. repeat split; vm_compute; reflexivity. Qed.
Lemma ex_xshows : shows ex_xfiles (lit "certs") ex_xdir.
Proof.
  intros name t H. unfold content_of, ex_xdir, ex_late_dir in H. cbn [Json.dict_get] in H.
  destruct (str_eqb (lit "notes") name) eqn:E1; [apply ListFacts.str_eqb_eq in E1; subst name; injection H as <-; reflexivity|].
  destruct (str_eqb (lit "5b.crt") name) eqn:E2; [apply ListFacts.str_eqb_eq in E2; subst name; injection H as <-; vm_compute; reflexivity|].
  destruct (str_eqb (lit "5a.crt") name) eqn:E3; [apply ListFacts.str_eqb_eq in E3; subst name; injection H as <-; vm_compute; reflexivity|]. discriminate H.
Qed.
Lemma ex_xcerts c : In c [ex_ca; ex_leaf] <-> dep_cert ex_late_gs c.
Proof.
  unfold dep_cert, ex_late_gs. split.
  - intros [<-|[<-|[]]]; (eexists; split; [now left|]; split; [discriminate|]); [left; now left|now right].
  - intros (g & [<-|[]] & _ & [[<-|[]]|E]); [now left|]. cbn [gr_cert] in E. injection E as <-. right. now left.
Qed.
Lemma ex_xapart : dep_serials_apart toy_world ex_late_gs.
Proof. intros c c' D D'. apply ex_xcerts in D, D'. destruct D as [<-|[<-|[]]], D' as [<-|[<-|[]]]; intros H; try reflexivity; vm_compute in H; discriminate H. Qed.
Lemma ex_xpaths c : dep_cert ex_late_gs c -> path (lit "certs") (crt_name toy_world c) <> lit "k.json".
Proof. intros D. apply ex_xcerts in D. destruct D as [<-|[<-|[]]]; vm_compute; discriminate. Qed.
Definition ex_xcalls : list (list str * str) := ([lit "k.json"; lit "create"], []) :: add_calls toy_world (lit "k.json") (lit "certs") [ex_ca; ex_leaf] [].
Lemma ex_xlist : store_program toy_world (ex_ksession ex_xfiles ex_xcalls) [] [lit "k.json"; lit "list"] = P_done None (lit "5b" ++ [c_nl] ++ lit "5a" ++ [c_nl]).
Proof. vm_compute. reflexivity. Qed.

(** The DEP is accepted with a key store that only has the certificate of the authority, and with the one made of its own
    certificates. *)
Definition ex_xstore : keystore := Eval vm_compute in
  match f_json (ex_ksession ex_xfiles ex_xcalls) (lit "k.json") with Ok j => match readStoreFromJson toy_world (load j) with Ok ks => ks | Err _ => [] end | Err _ => [] end.
Definition ex_xverdict := Eval vm_compute in verifyDEP toy_world (load ex_late) ex_ca_ks (Some ex_key) (new_cluster B_unique) None.
Lemma ex_xaccepted : verifyDEP toy_world (load ex_late) ex_ca_ks (Some ex_key) (new_cluster B_unique) None = ex_xverdict /\ snd ex_xverdict = None
  /\ verifyDEP toy_world (load ex_late) ex_xstore (Some ex_key) (new_cluster B_unique) None = ex_xverdict
  /\ snd (verifyDEP toy_world (load ex_late) [] (Some ex_key) (new_cluster B_unique) None) = Some (UntrustedCertificate (lit "5a")).
Proof. repeat split; vm_compute; reflexivity. Qed.
Lemma ex_xall : Forall (fun g => gr_cert g <> None) (occupied ex_late_gs)
  /\ forall c, dep_cert ex_late_gs c -> found_at ex_xstore (numSerialToKeyId (w_serial toy_world c)) = (Some (w_cert_pubkey toy_world c), Some c).
Proof. split; [constructor; [discriminate|constructor]|]. intros c D. apply ex_xcerts in D. destruct D as [<-|[<-|[]]]; vm_compute; reflexivity. Qed.
