(** The chunks the incremental parsers make of a well-formed file. *)
From Coq Require Import Lia ZifyClasses ZifyNat ZifyBool.
From Verif Require Import PyBase World Codec Receipt DepBase Json Pem DepParser ListFacts SpecCluster SpecDoc AcceptFacts SpecChunks ChunkFacts
  DictFacts IncFacts.
Open Scope N_scope.
Open Scope py_scope.

(** Without a chunk size all receipts are in one chunk. *)
Definition fill0 (n : nat) (c : option cert) (ch : list cert) (bs : list bytes) (chunk_ : chunk) (recs : list bytes)
  : list chunk * (chunk * list bytes) :=
  match n with O => ([], (chunk_, recs ++ bs)) | _ => fill n c ch bs chunk_ recs end.
Fixpoint pack0 (n : nat) (dgs : list dgroup) (chunk_ : chunk) : list chunk * chunk :=
  match dgs with
  | [] => ([], chunk_)
  | g :: r =>
      let x := fill0 n (g_cert g) (g_chain g) (g_recs g) chunk_ [] in
      let y := pack0 n r (close_group (g_cert g) (g_chain g) (snd x)) in
      (fst x ++ fst y, snd y)
  end.

Definition some_chunk (l : list chunk) : bool := match l with [] => false | _ => true end.

Section Run.
Variables (w : world) (kind : parser_kind) (doc : json) (n : nat).

Local Notation loop := (inc_loop w kind doc n).
Local Notation G m idx rs cs ls chunk cert chain recs := (DState m true true idx rs cs ls chunk cert chain recs).

Definition steps (evs : list (str * event)) (d : dstate) (got : bool) (out : list chunk) (d' : dstate) (got' : bool) : Prop :=
  forall rest, loop (evs ++ rest) d got = (out ++ fst (loop rest d' got'), snd (loop rest d' got')).

Lemma steps_nil d got : steps [] d got [] d got.
Proof. intros rest. cbn [app]. now destruct (loop rest d got). Qed.

Lemma steps_app e1 e2 d1 g1 o1 d2 g2 o2 d3 g3 : steps e1 d1 g1 o1 d2 g2 -> steps e2 d2 g2 o2 d3 g3 ->
  steps (e1 ++ e2) d1 g1 (o1 ++ o2) d3 g3.
Proof. intros H1 H2 rest. rewrite <- app_assoc, H1, H2. cbn [fst snd]. now rewrite app_assoc. Qed.

Definition room (d : dstate) : Prop := n = 0%nat \/ (size (d_chunk d) + List.length (d_recs d) < n)%nat.

Lemma room_ready d m : room d -> d_ready m n d = false.
Proof.
  unfold d_ready. rewrite current_size. intros [->|H]; [reflexivity|]. destruct (Nat.eqb_spec n 0); [reflexivity|].
  apply Nat.leb_gt. destruct (incomplete m); lia.
Qed.

Lemma step_quiet p e d d' got : d_parse w d p e = Ok d' -> room d' -> steps [(p, e)] d got [] d' got.
Proof.
  intros H R rest. cbn [app inc_loop]. rewrite H. cbv zeta. rewrite (room_ready _ _ R). now destruct (loop rest d' got).
Qed.

Lemma steps_quiet evs d got : Forall (fun x => d_parse w d (fst x) (snd x) = Ok d) evs -> room d -> steps evs d got [] d got.
Proof.
  intros F R. induction F as [|[p e] evs H _ IH]; [apply steps_nil|].
  exact (steps_app [(p, e)] evs _ _ [] _ _ [] _ _ (step_quiet _ _ _ _ _ H R) IH).
Qed.

(** ** Unknown elements *)

Lemma unknown_root_steps k x d got : d_mode d = M_root_map -> room d -> k <> [] -> dot_free k -> k <> k_bg ->
  steps (events [k] x) d got [] d got.
Proof.
  intros M R N F B. apply steps_quiet; [|exact R]. eapply Forall_impl; [|apply events_below]. intros [p e] H. cbn [fst snd] in *.
  destruct (unknown_root k p N F B H) as (P1 & P2 & _). apply str_eqb_neq in P1, P2. unfold d_parse. rewrite M, P1, P2. now destruct e.
Qed.

Lemma unknown_group_steps k x d got : d_mode d = M_group -> room d -> dot_free k -> k <> k_cert -> k <> k_certs -> k <> k_recs ->
  steps (events [k; k_item; k_bg] x) d got [] d got.
Proof.
  intros M R F N1 N2 N3. apply steps_quiet; [|exact R]. eapply Forall_impl; [|apply events_below]. intros [p e] H. cbn [fst snd] in *.
  pose proof (group_not_item _ _ H) as P0. pose proof (unknown_group k k_cert p F cert_dot_free N1 H) as P1.
  pose proof (unknown_group k k_certs p F certs_dot_free N2 H) as P2. pose proof (unknown_group k k_recs p F recs_dot_free N3 H) as P3.
  change (p_item ++ c_dot :: k_cert) with p_cert in P1. change (p_item ++ c_dot :: k_certs) with p_certs in P2.
  change (p_item ++ c_dot :: k_recs) with p_recs in P3. apply str_eqb_neq in P0, P1, P2, P3.
  unfold d_parse. rewrite M, P0, P1, P2, P3. now destruct e.
Qed.

Lemma key_steps k d got : d_mode d = M_group -> room d -> steps [(p_item, E_map_key k)] d got [] d got.
Proof. intros M R. apply step_quiet; [|exact R]. unfold d_parse. rewrite M. reflexivity. Qed.

(** ** Certificates of the chain *)

Lemma certs_steps idx rs cs ls chunk_ cert_ recs got texts certs : Forall2 (cert_text w) texts certs -> forall pre,
  room (G M_group idx rs cs ls chunk_ cert_ None recs) ->
  steps (map (fun s => (p_certs_item, E_string s)) texts) (G M_certs idx rs cs ls chunk_ cert_ (Some pre) recs) got []
    (G M_certs idx rs cs ls chunk_ cert_ (Some (pre ++ certs)) recs) got.
Proof.
  induction 1 as [|s c texts certs H _ IH]; intros pre R.
  - rewrite app_nil_r. apply steps_nil.
  - cbn [map]. refine (steps_app [_] _ _ _ [] _ _ [] _ _ (step_quiet _ _ _ _ _ _ _) _).
    + cbn [d_parse d_mode]. unfold cert_text in H. rewrite H. reflexivity.
    + exact R.
    + cbn [d_root_seen d_groups_seen d_curIdx d_recs_seen d_cert_seen d_list_seen d_chunk d_cert d_chain d_recs].
      specialize (IH (pre ++ [c]) R). rewrite <- app_assoc in IH. exact IH.
Qed.

Lemma list_events_texts path l : list_events path (map JStr l) = map (fun s => (dotted (rev (k_item :: path)), E_string s)) l ++ [(dotted (rev path), E_end_array)].
Proof. induction l as [|s l IH]; [reflexivity|]. cbn [map list_events events app]. now rewrite IH. Qed.

Lemma chain_steps idx rs cs chunk_ cert_ chain0 recs got texts certs : Forall2 (cert_text w) texts certs ->
  room (G M_group idx rs cs false chunk_ cert_ chain0 recs) ->
  steps (events [k_certs; k_item; k_bg] (JList (map JStr texts))) (G M_group idx rs cs false chunk_ cert_ chain0 recs) got []
    (G M_group idx rs cs true chunk_ cert_ (Some certs) recs) got.
Proof.
  intros F R. rewrite events_list, list_events_texts. eapply (steps_app [_] _ _ _ [] _ _ []); [apply step_quiet; [reflexivity|exact R]|].
  cbn [d_mode d_root_seen d_groups_seen d_curIdx d_recs_seen d_cert_seen d_list_seen d_chunk d_cert d_chain d_recs].
  refine (steps_app _ _ _ _ [] _ _ [] _ _ (certs_steps idx rs cs true chunk_ cert_ recs got texts certs F [] R) _).
  cbn [app]. apply step_quiet; [reflexivity|exact R].
Qed.

(** ** Receipts *)

Definition with_certs (d : dstate) (c : option cert) (ch : list cert) : dstate :=
  DState (d_mode d) (d_root_seen d) (d_groups_seen d) (d_curIdx d) (d_recs_seen d)
    (d_cert_seen d) (d_list_seen d) (d_chunk d) c (Some ch) (d_recs d).

(** The certificates are found when they are needed. *)
Definition found (idx : nat) (c : option cert) (ch : list cert) : Prop :=
  forall d, needCerts w kind doc (Nat.pred idx) d = Ok (with_certs d c ch).
Definition avail (idx : nat) (c : option cert) (ch : list cert) (cert_ : option cert) (chain_ : option (list cert)) : Prop :=
  n = 0%nat \/ found idx c ch \/ (c <> None /\ cert_ = c /\ chain_ = Some ch).

Definition consistent (c : option cert) (ch : list cert) (cert_ : option cert) (chain_ : option (list cert)) : Prop :=
  (cert_ = c \/ cert_ = None) /\ (chain_ = Some ch \/ chain_ = None).

Lemma get_recs idx rs cs ls chunk_ c ch recs : recs <> [] ->
  getChunk M_recs (G M_recs idx rs cs ls chunk_ c (Some ch) recs)
  = (chunk_ ++ [DGroup recs c ch], G M_recs idx rs cs ls [] c (Some ch) []).
Proof.
  intros N. destruct recs as [|x l]; [congruence|]. unfold getChunk. cbn [incomplete]. unfold mergeIntoChunk. cbn [d_recs]. cbv zeta. rewrite current_size.
  cbn [d_mode d_root_seen d_groups_seen d_curIdx d_recs_seen d_cert_seen d_list_seen d_chunk d_cert d_chain d_recs].
  assert (1 <= size (chunk_ ++ [DGroup (x :: l) c ch]))%nat as S1.
  { rewrite size_app, size_cons. cbn [g_recs List.length]. lia. }
  destruct (Nat.leb_spec (size (chunk_ ++ [DGroup (x :: l) c ch])) 0); [lia|]. reflexivity.
Qed.

Lemma emit_step idx cs ls chunk_ cert_ chain_ recs c ch got t b : utf8_encode t = Ok b -> avail idx c ch cert_ chain_ ->
  consistent c ch cert_ chain_ -> n <> 0%nat -> (n <= size chunk_ + List.length (recs ++ [b]))%nat ->
  steps [(p_recs_item, E_string t)] (G M_recs idx true cs ls chunk_ cert_ chain_ recs) got [chunk_ ++ [DGroup (recs ++ [b]) c ch]]
    (G M_recs idx true cs ls [] c (Some ch) []) true.
Proof.
  intros E Av Co N0 L rest. cbn [app inc_loop]. cbn [d_parse d_mode].
  change (str_eqb p_recs_item p_recs) with false. change (str_eqb p_recs_item p_recs_item) with true. cbv iota.
  unfold shrinkDEPReceipt. rewrite E. cbn [bind d_root_seen d_groups_seen d_curIdx d_recs_seen d_cert_seen d_list_seen d_chunk d_cert d_chain d_recs].
  assert (d_ready M_recs n (G M_recs idx true cs ls chunk_ cert_ chain_ (recs ++ [b])) = true) as Rd.
  { unfold d_ready. rewrite current_size. cbn [d_chunk d_recs incomplete]. destruct (Nat.eqb_spec n 0); [congruence|]. now apply Nat.leb_le. }
  cbv zeta. rewrite Rd.
  assert (match needCrt M_recs (G M_recs idx true cs ls chunk_ cert_ chain_ (recs ++ [b])) with
          | None => Ok (G M_recs idx true cs ls chunk_ cert_ chain_ (recs ++ [b]))
          | Some i => needCerts w kind doc i (G M_recs idx true cs ls chunk_ cert_ chain_ (recs ++ [b]))
          end = Ok (G M_recs idx true cs ls chunk_ c (Some ch) (recs ++ [b]))) as ->.
  { destruct Co as [Co1 Co2]. unfold needCrt. cbn [incomplete d_cert d_chain d_curIdx].
    destruct Av as [->|[Fo|(N & -> & ->)]]; [congruence| |destruct c; [reflexivity|congruence]].
    destruct cert_ as [x|]; [|apply Fo]. destruct Co1 as [<-|Co1]; [|discriminate].
    destruct chain_ as [y|]; [|apply Fo]. destruct Co2 as [Co2|Co2]; [|discriminate]. injection Co2 as ->. reflexivity. }
  rewrite get_recs by (destruct recs; discriminate). reflexivity.
Qed.

Lemma keep_step idx cs ls chunk_ cert_ chain_ recs got t b : utf8_encode t = Ok b ->
  room (G M_recs idx true cs ls chunk_ cert_ chain_ (recs ++ [b])) ->
  steps [(p_recs_item, E_string t)] (G M_recs idx true cs ls chunk_ cert_ chain_ recs) got []
    (G M_recs idx true cs ls chunk_ cert_ chain_ (recs ++ [b])) got.
Proof.
  intros E R. apply step_quiet; [|exact R]. cbn [d_parse d_mode]. unfold shrinkDEPReceipt. rewrite E. reflexivity.
Qed.

Lemma room_mode m1 m2 i1 i2 a1 a2 b1 b2 c1 c2 chunk_ cert1 cert2 chain1 chain2 recs :
  room (G m1 i1 a1 b1 c1 chunk_ cert1 chain1 recs) -> room (G m2 i2 a2 b2 c2 chunk_ cert2 chain2 recs).
Proof. exact (fun H => H). Qed.

Lemma recs_steps idx cs ls c ch texts bs : Forall2 (fun t b => utf8_encode t = Ok b) texts bs ->
  forall chunk_ cert_ chain_ recs got, avail idx c ch cert_ chain_ -> consistent c ch cert_ chain_ ->
  room (G M_recs idx true cs ls chunk_ cert_ chain_ recs) ->
  exists cert' chain',
    steps (map (fun s => (p_recs_item, E_string s)) texts) (G M_recs idx true cs ls chunk_ cert_ chain_ recs) got
      (fst (fill0 n c ch bs chunk_ recs))
      (G M_recs idx true cs ls (fst (snd (fill0 n c ch bs chunk_ recs))) cert' chain' (snd (snd (fill0 n c ch bs chunk_ recs))))
      (got || some_chunk (fst (fill0 n c ch bs chunk_ recs)))
    /\ (cert' = cert_ /\ chain' = chain_ \/ cert' = c /\ chain' = Some ch)
    /\ room (G M_recs idx true cs ls (fst (snd (fill0 n c ch bs chunk_ recs))) cert' chain' (snd (snd (fill0 n c ch bs chunk_ recs)))).
Proof.
  induction 1 as [|t b texts bs E _ IH]; intros chunk_ cert_ chain_ recs got Av Co R.
  - exists cert_, chain_. assert (fill0 n c ch [] chunk_ recs = ([], (chunk_, recs))) as -> by (unfold fill0; destruct n; [now rewrite app_nil_r|reflexivity]).
    cbn [fst snd some_chunk map]. rewrite Bool.orb_false_r. split; [apply steps_nil|]. split; [now left|exact R].
  - cbn [map]. destruct (Nat.eq_dec n 0) as [Z|NZ].
    + assert (forall x y, fill0 n c ch x chunk_ y = ([], (chunk_, y ++ x))) as F0 by (intros; unfold fill0; now rewrite Z).
      destruct (IH chunk_ cert_ chain_ (recs ++ [b]) got Av Co (or_introl Z)) as (cert' & chain' & S & K & Ro).
      rewrite F0 in *. cbn [fst snd some_chunk] in *. rewrite <- app_assoc in *. exists cert', chain'. split; [|split; [exact K|exact Ro]].
      exact (steps_app [_] _ _ _ [] _ _ [] _ _ (keep_step idx cs ls chunk_ cert_ chain_ recs got t b E (or_introl Z)) S).
    + assert (forall x y z, fill0 n c ch x y z = fill n c ch x y z) as F0 by (intros; unfold fill0; destruct n; [congruence|reflexivity]).
      rewrite F0. cbn [fill]. destruct (Nat.leb_spec n (size chunk_ + List.length (recs ++ [b]))) as [L|L].
      * assert (avail idx c ch c (Some ch)) as Av'.
        { destruct Av as [Av|[Av|(A1 & A2 & A3)]]; [now left|right; now left|]. right. right. auto. }
        assert (consistent c ch c (Some ch)) as Co' by (split; now left).
        assert (room (G M_recs idx true cs ls [] c (Some ch) [])) as R'.
        { right. change (0 < n)%nat. lia. }
        destruct (IH [] c (Some ch) [] true Av' Co' R') as (cert' & chain' & S & K & Ro). rewrite F0 in *. cbv zeta. cbn [fst snd some_chunk].
        exists cert', chain'. split; [|split; [|exact Ro]].
        -- rewrite Bool.orb_true_r. refine (steps_app [_] _ _ _ [_] _ _ _ _ _ (emit_step idx cs ls chunk_ cert_ chain_ recs c ch got t b E Av Co NZ L) _).
           cbn [orb] in S. exact S.
        -- right. destruct K as [[-> ->]|[-> ->]]; auto.
      * assert (room (G M_recs idx true cs ls chunk_ cert_ chain_ (recs ++ [b]))) as R' by now right.
        destruct (IH chunk_ cert_ chain_ (recs ++ [b]) got Av Co R') as (cert' & chain' & S & K & Ro). rewrite F0 in *.
        exists cert', chain'. split; [|split; [exact K|exact Ro]].
        exact (steps_app [_] _ _ _ [] _ _ _ _ _ (keep_step idx cs ls chunk_ cert_ chain_ recs got t b E R') S).
Qed.

Lemma receipts_steps idx cs ls c ch texts bs chunk_ cert_ chain_ got : Forall2 (fun t b => utf8_encode t = Ok b) texts bs ->
  avail idx c ch cert_ chain_ -> consistent c ch cert_ chain_ -> room (G M_recs idx true cs ls chunk_ cert_ chain_ []) ->
  exists cert' chain',
    steps (events [k_recs; k_item; k_bg] (JList (map JStr texts))) (G M_group idx false cs ls chunk_ cert_ chain_ []) got
      (fst (fill0 n c ch bs chunk_ []))
      (G M_group idx true cs ls (fst (snd (fill0 n c ch bs chunk_ []))) cert' chain' (snd (snd (fill0 n c ch bs chunk_ []))))
      (got || some_chunk (fst (fill0 n c ch bs chunk_ [])))
    /\ (cert' = cert_ /\ chain' = chain_ \/ cert' = c /\ chain' = Some ch)
    /\ room (G M_group idx true cs ls (fst (snd (fill0 n c ch bs chunk_ []))) cert' chain' (snd (snd (fill0 n c ch bs chunk_ [])))).
Proof.
  intros F Av Co R. destruct (recs_steps idx cs ls c ch texts bs F chunk_ cert_ chain_ [] got Av Co R) as (cert' & chain' & S & K & Ro).
  exists cert', chain'. split; [|split; [exact K|exact Ro]]. rewrite events_list, list_events_texts.
  eapply (steps_app [_] _ _ _ [] _ _ _); [apply step_quiet; [reflexivity|exact R]|].
  cbn [d_mode d_root_seen d_groups_seen d_curIdx d_recs_seen d_cert_seen d_list_seen d_chunk d_cert d_chain d_recs].
  cbn [app]. set (x := fill0 n c ch bs chunk_ []) in *. refine (eq_ind (fst x ++ []) (fun o => steps _ _ _ o _ (_ || some_chunk (fst x))) _ _ (app_nil_r _)).
  refine (steps_app _ _ _ _ _ _ _ [] _ _ S (step_quiet _ _ _ _ _ _ _)); [reflexivity|exact Ro].
Qed.

(** ** Groups *)

Definition pending (flag : bool) (d : list (str * json)) (k : str) (v : json) : Prop :=
  if flag then ~ In k (map fst d) else once d k v.

Lemma pending_head (flag : bool) d k v x : pending flag ((k, x) :: d) k v -> flag = false /\ x = v /\ ~ In k (map fst d).
Proof.
  destruct flag; cbn [pending].
  - intros H. exfalso. apply H. now left.
  - intros (a & b & E & Na & Nb). split; [reflexivity|]. destruct a as [|[k' y] a].
    + cbn [app] in E. injection E as -> ->. auto.
    + exfalso. cbn [app] in E. injection E as -> _ _. apply Na. now left.
Qed.
Lemma pending_tail (flag : bool) d k v k' x : pending flag ((k', x) :: d) k v -> k' <> k -> pending flag d k v.
Proof.
  destruct flag; cbn [pending].
  - intros H _ I. apply H. now right.
  - intros (a & b & E & Na & Nb) N. destruct a as [|[k2 y] a].
    + cbn [app] in E. injection E as -> _ _. congruence.
    + cbn [app] in E. injection E as _ _ E. exists a, b. split; [exact E|]. split; [|exact Nb]. intros I. apply Na. now right.
Qed.

Definition in_order (d : list (str * json)) (cs ls : bool) (c : option cert) : Prop :=
  c <> None /\ exists a b v, d = a ++ (k_recs, v) :: b /\ (cs = true \/ In k_cert (map fst a)) /\ (ls = true \/ In k_certs (map fst a)).

Lemma in_order_tail k x d cs ls cs' ls' c : in_order ((k, x) :: d) cs ls c -> k <> k_recs ->
  (k = k_cert -> cs' = true) -> (k = k_certs -> ls' = true) -> (cs = true -> cs' = true) -> (ls = true -> ls' = true) -> in_order d cs' ls' c.
Proof.
  intros (N & a & b & v & E & A1 & A2) Nk H1 H2 H3 H4. split; [exact N|]. destruct a as [|[k' y] a].
  - cbn [app] in E. injection E as -> _ _. congruence.
  - cbn [app] in E. injection E as <- _ E. exists a, b, v. split; [exact E|]. cbn [map fst] in A1, A2.
    split; [destruct A1 as [A1|[A1|A1]]; auto|destruct A2 as [A2|[A2|A2]]; auto].
Qed.

(** The members of a group one by one *)
Lemma members_steps idx c ch sc texts bs certs0 d : Forall2 (fun t b => utf8_encode t = Ok b) texts bs ->
  (sc = [] /\ c = None \/ sc <> [] /\ exists x, cert_text w sc x /\ c = Some x) -> Forall2 (cert_text w) certs0 ch ->
  Forall (fun kv => dot_free (fst kv)) d ->
  forall (rs cs ls : bool) chunk_ cert_ chain_ recs got,
  pending rs d k_recs (JList (map JStr texts)) -> pending cs d k_cert (JStr sc) -> pending ls d k_certs (JList (map JStr certs0)) ->
  (if cs then cert_ = c else cert_ = c \/ cert_ = None) -> (if ls then chain_ = Some ch else chain_ = Some ch \/ chain_ = None) ->
  rs = true \/ recs = [] /\ (n = 0%nat \/ found idx c ch \/ in_order d cs ls c) ->
  room (G M_group idx rs cs ls chunk_ cert_ chain_ recs) ->
  let x := if rs then ([], (chunk_, recs)) else fill0 n c ch bs chunk_ recs in
  room (G M_list idx true true true (close_group c ch (snd x)) c (Some ch) []) /\
  steps (dict_events [k_item; k_bg] d) (G M_group idx rs cs ls chunk_ cert_ chain_ recs) got (fst x)
    (G M_list idx true true true (close_group c ch (snd x)) c (Some ch) []) (got || some_chunk (fst x)).
Proof.
  intros Fb Hc Fch. induction d as [|[k v] d IH]; intros Fd rs cs ls chunk_ cert_ chain_ recs got Pr Pc Pl Kc Kl Av R.
  - destruct rs; [|destruct Pr as ([|] & ? & E & _); discriminate]. destruct cs; [|destruct Pc as ([|] & ? & E & _); discriminate].
    destruct ls; [|destruct Pl as ([|] & ? & E & _); discriminate]. subst cert_ chain_. cbv zeta. cbn [fst snd some_chunk]. rewrite Bool.orb_false_r.
    assert (room (G M_list idx true true true (close_group c ch (chunk_, recs)) c (Some ch) [])) as R'.
    { destruct R as [R|R]; [now left|]. right. cbn [d_chunk d_recs List.length] in *. unfold close_group. cbn [fst snd].
      destruct recs as [|r0 rs0]; [exact R|]. rewrite size_app, size_cons, size_nil. cbn [g_recs]. lia. }
    split; [exact R'|]. cbn [dict_events]. apply step_quiet; [|exact R'].
    cbn [d_parse d_mode]. change (str_eqb (dotted (rev [k_item; k_bg])) p_item) with true. cbv iota. cbn [d_cert_seen d_list_seen d_recs_seen].
    unfold mergeIntoChunk, set_mode, close_group. cbn [d_recs snd fst]. destruct recs; reflexivity.
  - inversion Fd as [|? ? F1 F2]; subst. cbn [fst] in F1. cbn [dict_events]. cbv zeta.
    assert (steps [(p_item, E_map_key k)] (G M_group idx rs cs ls chunk_ cert_ chain_ recs) got [] (G M_group idx rs cs ls chunk_ cert_ chain_ recs) got) as Sk
      by (apply key_steps; [reflexivity|exact R]).
    change (dotted (rev [k_item; k_bg])) with p_item.
    destruct (list_eq_dec N.eq_dec k k_cert) as [->|N1]; [|destruct (list_eq_dec N.eq_dec k k_certs) as [->|N2];
      [|destruct (list_eq_dec N.eq_dec k k_recs) as [->|N3]]].
    + apply pending_head in Pc as (-> & -> & Pc).
      assert (steps (events [k_cert; k_item; k_bg] (JStr sc)) (G M_group idx rs false ls chunk_ cert_ chain_ recs) got []
                (G M_group idx rs true ls chunk_ c chain_ recs) got) as Sc.
      { cbn [events]. apply step_quiet; [|exact R]. cbn [d_parse d_mode]. change (str_eqb (dotted (rev [k_cert; k_item; k_bg])) p_item) with false.
        change (str_eqb (dotted (rev [k_cert; k_item; k_bg])) p_cert) with true. cbv iota. cbn [d_cert_seen negb].
        destruct Hc as [[-> ->]|(Ns & x & Hx & ->)]; [reflexivity|]. destruct sc; [congruence|]. cbn [nonempty]. unfold cert_text in Hx. rewrite Hx. reflexivity. }
      destruct (IH F2 rs true ls chunk_ c chain_ recs got) as [R' S]; try assumption.
      * eapply pending_tail; [exact Pr|discriminate].
      * eapply pending_tail; [exact Pl|discriminate].
      * reflexivity.
      * destruct Av as [Av|[E [Av|[Av|Av]]]]; [now left|right; auto|right; auto|right]. split; [exact E|]. right. right.
        eapply in_order_tail; [exact Av|discriminate|auto|discriminate|auto|auto].
      * split; [exact R'|]. exact (steps_app [_] _ _ _ [] _ _ _ _ _ Sk (steps_app _ _ _ _ [] _ _ _ _ _ Sc S)).
    + apply pending_head in Pl as (-> & -> & Pl).
      pose proof (chain_steps idx rs cs chunk_ cert_ chain_ recs got certs0 ch Fch R) as Sc.
      destruct (IH F2 rs cs true chunk_ cert_ (Some ch) recs got) as [R' S]; try assumption.
      * eapply pending_tail; [exact Pr|discriminate].
      * eapply pending_tail; [exact Pc|discriminate].
      * reflexivity.
      * destruct Av as [Av|[E [Av|[Av|Av]]]]; [now left|right; auto|right; auto|right]. split; [exact E|]. right. right.
        eapply in_order_tail; [exact Av|discriminate|discriminate|auto|auto|auto].
      * split; [exact R'|]. exact (steps_app [_] _ _ _ [] _ _ _ _ _ Sk (steps_app _ _ _ _ [] _ _ _ _ _ Sc S)).
    + pose proof Pr as Pr0. apply pending_head in Pr as (-> & -> & Pr). destruct Av as [Av|[-> Av]]; [discriminate|].
      assert (consistent c ch cert_ chain_) as Co.
      { split; [destruct cs; [now left|exact Kc]|destruct ls; [now left|exact Kl]]. }
      assert (avail idx c ch cert_ chain_) as Av'.
      { destruct Av as [Av|[Av|(Nc & a & b & v' & E & A1 & A2)]]; [now left|right; now left|]. right. right. split; [exact Nc|].
        destruct a as [|[k' y] a].
        - destruct A1 as [->|[]]. destruct A2 as [->|[]]. auto.
        - exfalso. cbn [app] in E. injection E as _ _ E. apply Pr. rewrite E, map_app. apply in_or_app. right. now left. }
      destruct (receipts_steps idx cs ls c ch texts bs chunk_ cert_ chain_ got Fb Av' Co R) as (cert' & chain' & Sc & K & Ro).
      destruct (fill0 n c ch bs chunk_ []) as [out [chunk1 recs1]]. cbn [fst snd] in *.
      destruct (IH F2 true cs ls chunk1 cert' chain' recs1 (got || some_chunk out)) as [R' S]; try assumption.
      * eapply pending_tail; [exact Pc|discriminate].
      * eapply pending_tail; [exact Pl|discriminate].
      * destruct K as [[-> ->]|[-> ->]]; [exact Kc|]. destruct cs; auto.
      * destruct K as [[-> ->]|[-> ->]]; [exact Kl|]. destruct ls; auto.
      * now left.
      * cbn [fst snd some_chunk] in S, R'. rewrite Bool.orb_false_r in S. split; [exact R'|].
        refine (eq_ind (out ++ []) (fun o => steps _ _ _ o _ (_ || some_chunk out)) _ _ (app_nil_r _)).
        exact (steps_app [_] _ _ _ [] _ _ _ _ _ Sk (steps_app _ _ _ _ _ _ _ _ _ _ Sc S)).
    + assert (steps (events [k; k_item; k_bg] v) (G M_group idx rs cs ls chunk_ cert_ chain_ recs) got [] (G M_group idx rs cs ls chunk_ cert_ chain_ recs) got) as Sc
        by (apply unknown_group_steps; try assumption; reflexivity).
      destruct (IH F2 rs cs ls chunk_ cert_ chain_ recs got) as [R' S]; try assumption.
      * eapply pending_tail; [exact Pr|congruence].
      * eapply pending_tail; [exact Pc|congruence].
      * eapply pending_tail; [exact Pl|congruence].
      * destruct Av as [Av|[E [Av|[Av|Av]]]]; [now left|right; auto|right; auto|right]. split; [exact E|]. right. right.
        eapply in_order_tail; [exact Av|congruence|congruence|congruence|auto|auto].
      * split; [exact R'|]. exact (steps_app [_] _ _ _ [] _ _ _ _ _ Sk (steps_app _ _ _ _ [] _ _ _ _ _ Sc S)).
Qed.

(** ** All groups *)

(** The certificates of a group are there or can be found when they are needed. *)
Definition group_ready (i : nat) (j : json) (c : option cert) (ch : list cert) : Prop :=
  n = 0%nat \/ found i c ch \/ exists d, j = JDict d /\ in_order d false false c.

Lemma group_steps idx rs cs ls chunk_ cert_ chain_ got j g dg : group_doc w j g -> encoded g dg ->
  (forall d, j = JDict d -> Forall (fun kv => dot_free (fst kv)) d) -> group_ready (S idx) j (g_cert dg) (g_chain dg) ->
  room (G M_list idx rs cs ls chunk_ cert_ chain_ []) ->
  let x := fill0 n (g_cert dg) (g_chain dg) (g_recs dg) chunk_ [] in
  room (G M_list (S idx) true true true (close_group (g_cert dg) (g_chain dg) (snd x)) (g_cert dg) (Some (g_chain dg)) []) /\
  steps (events [k_item; k_bg] j) (G M_list idx rs cs ls chunk_ cert_ chain_ []) got (fst x)
    (G M_list (S idx) true true true (close_group (g_cert dg) (g_chain dg) (snd x)) (g_cert dg) (Some (g_chain dg)) [])
    (got || some_chunk (fst x)).
Proof.
  intros (d & sc & chain & -> & O1 & O2 & Hc & O3 & Fch) (Fb & Ec & Ech) Fd Rd R. cbv zeta. rewrite <- Ec in Hc. rewrite <- Ech in Fch.
  destruct (members_steps (S idx) (g_cert dg) (g_chain dg) sc _ _ chain d Fb Hc Fch (Fd d eq_refl) false false false chunk_ None None [] got) as [R' S];
    try assumption; try (now right).
  - right. split; [reflexivity|]. destruct Rd as [Rd|[Rd|(d' & E & Rd)]]; [now left|right; now left|]. right. right. injection E as <-. exact Rd.
  - split; [exact R'|]. rewrite events_dict. cbn [rev app] in *.
    refine (steps_app [_] _ _ _ [] _ _ _ _ _ (step_quiet _ _ _ _ _ _ _) S); [reflexivity|exact R].
Qed.

Lemma groups_steps js gs : Forall2 (group_doc w) js gs -> forall dgs, Forall2 encoded gs dgs ->
  (forall j d, In j js -> j = JDict d -> Forall (fun kv => dot_free (fst kv)) d) ->
  forall idx rs cs ls chunk_ cert_ chain_ got,
  (forall i j dg, nth_error js i = Some j -> nth_error dgs i = Some dg -> group_ready (S (idx + i)) j (g_cert dg) (g_chain dg)) ->
  room (G M_list idx rs cs ls chunk_ cert_ chain_ []) ->
  exists idx' rs' cs' ls' cert' chain',
    room (G M_root_map idx' rs' cs' ls' (snd (pack0 n dgs chunk_)) cert' chain' []) /\
    steps (list_events [k_bg] js) (G M_list idx rs cs ls chunk_ cert_ chain_ []) got (fst (pack0 n dgs chunk_))
      (G M_root_map idx' rs' cs' ls' (snd (pack0 n dgs chunk_)) cert' chain' []) (got || some_chunk (fst (pack0 n dgs chunk_))).
Proof.
  induction 1 as [|j g js gs H _ IH]; intros dgs E Fd idx rs cs ls chunk_ cert_ chain_ got Rd R.
  - inversion E; subst. cbn [pack0 fst snd some_chunk list_events]. exists idx, rs, cs, ls, cert_, chain_. split; [exact R|].
    rewrite Bool.orb_false_r. apply step_quiet; [reflexivity|exact R].
  - inversion E as [|? dg ? dgs' E1 E2]; subst. cbn [pack0]. cbv zeta.
    destruct (group_steps idx rs cs ls chunk_ cert_ chain_ got j g dg H E1) as [R' S].
    + intros d Ed. apply (Fd j d); [now left|exact Ed].
    + specialize (Rd 0%nat j dg eq_refl eq_refl). rewrite Nat.add_0_r in Rd. exact Rd.
    + exact R.
    + destruct (fill0 n (g_cert dg) (g_chain dg) (g_recs dg) chunk_ []) as [out1 st]. cbn [fst snd] in *.
      destruct (IH dgs' E2 (fun j d I => Fd j d (or_intror I)) (Datatypes.S idx) true true true (close_group (g_cert dg) (g_chain dg) st)
        (g_cert dg) (Some (g_chain dg)) (got || some_chunk out1)) as (idx' & rs' & cs' & ls' & cert' & chain' & R2 & S2).
      * intros i j' dg' H1 H2. specialize (Rd (Datatypes.S i) j' dg' H1 H2). rewrite Nat.add_succ_r in Rd. exact Rd.
      * exact R'.
      * exists idx', rs', cs', ls', cert', chain'. split; [exact R2|]. cbn [list_events].
        destruct (pack0 n dgs' _) as [out2 c2]. cbn [fst snd] in *.
        replace (got || some_chunk (out1 ++ out2))%bool with ((got || some_chunk out1) || some_chunk out2)%bool.
        -- exact (steps_app _ _ _ _ _ _ _ _ _ _ S S2).
        -- rewrite <- Bool.orb_assoc. f_equal. destruct out1; [reflexivity|]. reflexivity.
Qed.

(** ** The file *)

Lemma skip p e st st' got l : d_parse w st p e = Ok st' -> room st' -> loop ((p, e) :: l) st got = loop l st' got.
Proof. intros H R. cbn [inc_loop]. rewrite H. cbv zeta. now rewrite (room_ready _ _ R). Qed.

Lemma before_steps d got : Forall (fun kv => fst kv <> [] /\ dot_free (fst kv)) d -> ~ In k_bg (map fst d) -> forall st rest,
  d_mode st = M_root_map -> room st ->
  loop (dict_events [] (d ++ rest)) st got = loop (dict_events [] rest) st got.
Proof.
  intros F N st rest M R. induction F as [|[k v] d [F1 F2] F IH]; [reflexivity|]. cbn [app dict_events]. cbn [fst map] in *.
  assert (k <> k_bg) as Nk by (intros ->; apply N; now left).
  assert (steps [(dotted (rev []), E_map_key k)] st got [] st got) as Sk by (apply step_quiet; [unfold d_parse; rewrite M; reflexivity|exact R]).
  assert (forall l, loop ((dotted (rev []), E_map_key k) :: l) st got = loop l st got) as ->.
  { intros l. specialize (Sk l). cbn [app] in Sk. rewrite Sk. now destruct (loop l st got). }
  rewrite (unknown_root_steps k v st got M R F1 F2 Nk). cbn [app]. rewrite <- surjective_pairing. apply IH. intros I. apply N. now right.
Qed.

Lemma full_fill0 c ch bs chunk_ recs : full chunk_ -> full (fst (snd (fill0 n c ch bs chunk_ recs))).
Proof. intros F. unfold fill0. destruct n; [exact F|]. now apply fill_full. Qed.
Lemma full_pack0 dgs : forall chunk_, full chunk_ -> full (snd (pack0 n dgs chunk_)).
Proof. induction dgs as [|g dgs IH]; intros chunk_ F; [exact F|]. cbn [pack0]. cbv zeta. cbn [snd]. apply IH, close_full, full_fill0, F. Qed.

Theorem doc_chunks gs dgs : dep_doc w doc gs -> plain_names doc -> Forall2 encoded gs dgs ->
  (forall d js i j dg, doc = JDict d -> In (k_bg, JList js) d -> nth_error js i = Some j -> nth_error dgs i = Some dg ->
     group_ready (S i) j (g_cert dg) (g_chain dg)) ->
  parse_inc w kind doc n = match finish (pack0 n dgs []) with [] => ([], Some MalformedDEP) | l => (l, None) end.
Proof.
  intros (d & js & Edoc & O & F) P E Rd. destruct (P d Edoc) as [Pd Pj].
  assert (parse_inc w kind doc n = loop (([], E_start_map) :: dict_events [] d) d_init false) as ->.
  { unfold parse_inc. f_equal. rewrite Edoc. apply events_dict. }
  destruct O as (a & b & Ed & Na & Nb).
  assert (In (k_bg, JList js) d) as I by (rewrite Ed; apply in_or_app; right; now left).
  specialize (Pj js I). rewrite Ed in Pd. apply Forall_app in Pd as [Pa Pd]. inversion Pd as [|? ? _ Pb]; subst.
  set (st0 := DState M_root_map true false 0 false false false [] None None []).
  assert (forall st, d_chunk st = [] -> d_recs st = [] -> room st) as R0.
  { intros st E1 E2. unfold room. rewrite E1, E2. rewrite size_nil. cbn [List.length]. lia. }
  assert (room st0) as Rs by now apply R0.
  etransitivity; [refine (skip _ _ d_init st0 _ _ _ Rs); reflexivity|].
  rewrite (before_steps a false Pa Na st0 _ eq_refl Rs). cbn [dict_events].
  etransitivity; [refine (skip _ _ st0 st0 _ _ _ Rs); reflexivity|].
  rewrite events_list. cbn [app].
  set (st1 := G M_list 0 false false false [] None None []).
  etransitivity; [refine (skip _ _ st0 st1 _ _ _ (R0 st1 eq_refl eq_refl)); reflexivity|].
  destruct (groups_steps js gs F dgs E) with (idx := 0%nat) (rs := false) (cs := false) (ls := false) (chunk_ := @nil dgroup)
    (cert_ := @None cert) (chain_ := @None (list cert)) (got := false) as (idx' & rs' & cs' & ls' & cert' & chain' & R2 & S2).
  - intros j g Hj ->. apply (Pj g Hj).
  - intros i j dg H1 H2. exact (Rd _ js i j dg Edoc I H1 H2).
  - now apply R0.
  - fold st1 in S2. rewrite S2. clear S2.
    pose proof (full_pack0 dgs [] (Forall_nil _)) as Fu. unfold finish.
    destruct (pack0 n dgs []) as [out last]. cbn [fst snd] in *. cbn [orb].
    pose proof (before_steps b (some_chunk out) Pb Nb (G M_root_map idx' rs' cs' ls' last cert' chain' []) [] eq_refl R2) as B.
    rewrite app_nil_r in B. rewrite B. clear B. cbn [dict_events].
    rewrite (skip [] E_end_map (G M_root_map idx' rs' cs' ls' last cert' chain' []) (G M_root idx' rs' cs' ls' last cert' chain' []) _ [] eq_refl R2).
    cbn [inc_loop]. unfold getChunk. cbn [d_mode incomplete]. cbv zeta. rewrite current_size. cbn [d_chunk].
    pose proof (full_size last Fu) as Sz.
    destruct last as [|g last].
    + rewrite size_nil. cbn [Nat.leb fst]. destruct out as [|o out]; cbn [some_chunk]; [reflexivity|]. unfold s_end. cbn [fst snd].
      now rewrite app_nil_r.
    + apply Nat.ltb_lt in Sz. destruct (Nat.leb_spec (size (g :: last)) 0); [lia|]. cbn [fst]. unfold s_cons, s_end. cbn [fst snd].
      destruct out; reflexivity.
Qed.

End Run.

(** ** The two parsers *)

Lemma pack0_pos n dgs : (1 <= n)%nat -> forall chunk_, pack0 n dgs chunk_ = pack n dgs chunk_.
Proof.
  intros H. destruct n; [lia|]. induction dgs as [|g dgs IH]; intros chunk_; [reflexivity|]. cbn [pack0 pack]. cbv zeta. now rewrite IH.
Qed.
Lemma pack0_zero dgs : forall chunk_, pack0 0 dgs chunk_ = ([], chunk_ ++ filter has_receipts dgs).
Proof.
  induction dgs as [|g dgs IH]; intros chunk_; cbn [pack0]; [now rewrite app_nil_r|]. cbv zeta. rewrite IH. cbn [fill0 fst snd app]. f_equal.
  cbn [filter]. unfold close_group, has_receipts at 2. cbn [fst snd]. destruct g as [[|r rs] c ch]; cbn [g_recs g_cert g_chain]; [reflexivity|].
  now rewrite <- app_assoc.
Qed.

(** All receipts at once, or with so many receipts *)
Definition inc_chunks (n : nat) (dgs : list dgroup) : list chunk :=
  match n with
  | O => match filter has_receipts dgs with [] => [] | l => [l] end
  | _ => chunks_of n dgs
  end.

Lemma finish_pack0 n dgs : finish (pack0 n dgs []) = inc_chunks n dgs.
Proof.
  destruct n as [|n].
  - rewrite pack0_zero. unfold finish. cbn [fst snd app inc_chunks]. reflexivity.
  - rewrite pack0_pos by lia. rewrite pack_windows by lia. reflexivity.
Qed.

Lemma inc_chunks_nil n dgs : inc_chunks n dgs = [] <-> filled dgs = [].
Proof.
  destruct n as [|n]; [|exact (dict_chunks_nil (S n) dgs)]. cbn [inc_chunks]. rewrite filter_filled. destruct (filled dgs); split; congruence.
Qed.

Lemma nth_Forall2 {A B} (R : A -> B -> Prop) l1 l2 i a b : Forall2 R l1 l2 -> nth_error l1 i = Some a -> nth_error l2 i = Some b -> R a b.
Proof.
  intros F. revert i. induction F as [|x y l1 l2 H _ IH]; intros [|i]; cbn [nth_error]; try discriminate.
  - intros H1 H2. injection H1 as <-. injection H2 as <-. exact H.
  - apply IH.
Qed.
Lemma nth_other {A B} (R : A -> B -> Prop) l1 l2 i a : Forall2 R l1 l2 -> nth_error l1 i = Some a -> exists b, nth_error l2 i = Some b /\ R a b.
Proof.
  intros F. revert i. induction F as [|x y l1 l2 H _ IH]; intros [|i]; cbn [nth_error]; try discriminate.
  - intros H1. injection H1 as <-. eauto.
  - apply IH.
Qed.

Lemma nth_back {A B} (R : A -> B -> Prop) l1 l2 i b : Forall2 R l1 l2 -> nth_error l2 i = Some b -> exists a, nth_error l1 i = Some a.
Proof.
  intros F. revert i. induction F as [|x y l1 l2 H _ IH]; intros [|i]; cbn [nth_error]; try discriminate; [eauto|]. apply IH.
Qed.

Lemma once_in d k v v' : once d k v -> In (k, v') d -> v' = v.
Proof.
  intros (a & b & -> & Na & Nb) I. apply in_app_or in I as [I|[I|I]].
  - exfalso. apply Na. now apply (in_map fst) in I.
  - congruence.
  - exfalso. apply Nb. now apply (in_map fst) in I.
Qed.

Lemma file_ready w doc n gs dgs : dep_doc w doc gs -> plain_names doc -> Forall2 encoded gs dgs ->
  forall d js i j dg, doc = JDict d -> In (k_bg, JList js) d -> nth_error js i = Some j -> nth_error dgs i = Some dg ->
     group_ready w P_file doc n (S i) j (g_cert dg) (g_chain dg).
Proof.
  intros D P E.
  intros d js i j dg Edoc I Hj Hd. right. left. intros st. cbn [Nat.pred needCerts].
  destruct D as (d0 & js0 & Edoc0 & O & F). rewrite Edoc in Edoc0. injection Edoc0 as <-. apply (once_in _ _ _ _ O) in I. injection I as <-.
  destruct (P d Edoc) as [Pd Pj]. assert (In (k_bg, JList js) d) as I by (destruct O as (a & b & -> & _); apply in_or_app; right; now left).
  specialize (Pj js I).
  assert (exists scs chains,
    Forall2 (fun j v => exists g, j = JDict g /\ Forall (fun kv => dot_free (fst kv)) g /\ once g k_cert v) js (map JStr scs)
    /\ Forall2 (fun j v => exists g, j = JDict g /\ Forall (fun kv => dot_free (fst kv)) g /\ once g k_certs v) js (map (fun ch => JList (map JStr ch)) chains)
    /\ Forall2 (fun sc g => sc = [] /\ gr_cert g = None \/ sc <> [] /\ exists c, cert_text w sc c /\ gr_cert g = Some c) scs gs
    /\ Forall2 (fun ch g => Forall2 (cert_text w) ch (gr_chain g)) chains gs) as (scs & chains & F1 & F2 & F3 & F4).
  { clear -F Pj. induction F as [|j g js gs (d & sc & chain & -> & O1 & O2 & Hc & O3 & Fch) F IH].
    - exists [], []. repeat split; constructor.
    - destruct IH as (scs & chains & F1 & F2 & F3 & F4); [intros; apply Pj; now right|].
      assert (Forall (fun kv => dot_free (fst kv)) d) as Fd by (apply Pj; now left).
      exists (sc :: scs), (chain :: chains). split; [|split; [|split]]; cbn [map]; constructor; eauto. }
  pose proof (doc_items k_cert d js _ cert_dot_free Pd O F1) as I1. pose proof (doc_items k_certs d js _ certs_dot_free Pd O F2) as I2.
  change (p_item ++ c_dot :: k_cert) with p_cert in I1. change (p_item ++ c_dot :: k_certs) with p_certs in I2.
  rewrite Edoc, I1, I2. unfold index. rewrite !map_map.
  destruct (nth_other _ _ _ _ _ F Hj) as (g & Hg & _). pose proof (nth_Forall2 _ _ _ _ _ _ E Hg Hd) as (_ & Ec & Ech).
  assert (exists sc, nth_error scs i = Some sc) as [sc Hsc] by exact (nth_back _ _ _ _ _ F3 Hg).
  assert (exists chain, nth_error chains i = Some chain) as [chain Hchain] by exact (nth_back _ _ _ _ _ F4 Hg).
  rewrite (map_nth_error _ _ _ Hsc), (map_nth_error _ _ _ Hchain). cbn [bind]. rewrite load_texts. cbn [load iter bind].
  pose proof (nth_Forall2 _ _ _ _ _ _ F3 Hsc Hg) as Hc. pose proof (nth_Forall2 _ _ _ _ _ _ F4 Hchain Hg) as Hch. cbv beta in Hc, Hch.
  assert (opt_cert w (JStr sc) = Ok (g_cert dg)) as ->.
  { rewrite Ec. destruct Hc as [[-> ->]|(N & c & T & ->)]; [reflexivity|]. unfold opt_cert. destruct sc; [congruence|]. cbn [parseDEPCertJ].
    unfold cert_text in T. now rewrite T. }
  cbn [bind].
  assert (mapM (parseDEPCertJ w) (map JStr chain) = Ok (g_chain dg)) as ->.
  { rewrite Ech. apply mapM_Ok. clear -Hch. induction Hch; cbn [map]; constructor; auto. }
  reflexivity.
Qed.

Theorem file_chunks w doc n gs dgs : dep_doc w doc gs -> plain_names doc -> Forall2 encoded gs dgs -> filled dgs <> [] ->
  parse_inc w P_file doc n = (inc_chunks n dgs, None).
Proof.
  intros D P E NE. rewrite (doc_chunks w P_file doc n gs dgs D P E).
  - rewrite finish_pack0. destruct (inc_chunks n dgs) eqn:X; [|reflexivity]. now apply inc_chunks_nil in X.
  - apply (file_ready w doc n gs dgs D P E).
Qed.

Theorem stream_chunks w doc n gs dgs : dep_doc w doc gs -> plain_names doc -> certs_first doc -> Forall2 encoded gs dgs -> filled dgs <> [] ->
  parse_inc w P_stream doc n = (inc_chunks n dgs, None).
Proof.
  intros D P C E NE. rewrite (doc_chunks w P_stream doc n gs dgs D P E).
  - rewrite finish_pack0. destruct (inc_chunks n dgs) eqn:X; [|reflexivity]. now apply inc_chunks_nil in X.
  - intros d js i j dg Edoc I Hj Hd. right. right.
    destruct D as (d0 & js0 & Edoc0 & O & F). rewrite Edoc in Edoc0. injection Edoc0 as <-. pose proof (once_in _ _ _ _ O I) as X. injection X as <-.
    destruct (nth_other _ _ _ _ _ F Hj) as (g & Hg & (dd & sc & chain & -> & O1 & O2 & Hc & O3 & Fch)).
    pose proof (nth_Forall2 _ _ _ _ _ _ E Hg Hd) as (_ & Ec & Ech).
    exists dd. split; [reflexivity|]. destruct (C d js dd Edoc I (nth_error_In _ _ Hj)) as (a & b & v & Ed & I1 & sc' & I2 & N).
    assert (sc' = sc) as ->.
    { assert (In (k_cert, JStr sc') dd) as X by (rewrite Ed; apply in_or_app; now left). apply (once_in _ _ _ _ O2) in X. congruence. }
    split; [rewrite Ec; destruct Hc as [[-> _]|(_ & c & _ & ->)]; congruence|].
    exists a, b, v. split; [exact Ed|]. split; right; [|exact I1]. now apply (in_map fst) in I2.
Qed.
