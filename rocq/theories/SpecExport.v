(** What is said about exported, split and merged DEPs. *)
From Verif Require Import PyBase World Codec Receipt Json Pem KeyStore State DepParser Verify DepExport SpecReceipt
  SpecDep SpecCluster SpecMerge.
Open Scope N_scope.

(** Groups as the parsers deliver them: the receipts were read from texts, the
    certificates from PEM texts. *)
Definition parsed_group (w : world) (g : rgroup rtuple) : Prop :=
  Forall (fun r => exists t, fromJWSString w t = Ok r) (rg_recs g)
  /\ (forall c, rg_cert g = Some c \/ In c (rg_chain g) -> exists t, loadCert w t = Ok c).

(** Names for additional elements *)
Definition extra_ok (extra : list (str * json)) : Prop :=
  Forall (fun kv => fst kv <> k_bg /\ fst kv <> [] /\ ~ In c_dot (fst kv)) extra.

(** The texts of the receipts with certificates and chains *)
Definition text_stamps (gs : list group) : list (str * (option cert * list cert)) :=
  flat_map (fun g => map (fun t => (t, (gr_cert g, gr_chain g))) (gr_texts g)) gs.

(** Header and payload of a receipt are encoded without padding and with unused
    bits zero. *)
Definition canonical_text (t : str) : Prop :=
  exists h p g, t = h ++ [c_dot] ++ p ++ [c_dot] ++ g /\ canon_seg h /\ canon_seg p.
Definition canonical_texts (gs : list group) : Prop := Forall (fun g => Forall canonical_text (gr_texts g)) gs.

(** DEPs that are accepted one after the other, for the same register *)
Fixpoint accepted_in_turn (w : world) (ks : keystore) (key : option bytes) (register : option Z)
    (deps : list json) (c : cluster) (idx : option Z) (c' : cluster) : Prop :=
  match deps with
  | [] => c' = c
  | dep :: r => exists c1, verifyDEP w dep ks key c idx = (c1, None)
      /\ accepted_in_turn w ks key register r c1 register c'
  end.

(** Consecutive receipts with the same certificate have the same chain. *)
Definition chains_agree (l : list (option cert * list cert)) : Prop :=
  forall l1 x y l2, l = l1 ++ x :: y :: l2 -> fst x = fst y -> snd x = snd y.

(** DEPs without certificates, which have one group *)
Definition certless (gs : list group) : Prop := exists g, occupied gs = [g] /\ gr_cert g = None.

(** All receipts can be read. *)
Definition texts_read (w : world) (gs : list group) : Prop :=
  Forall (fun g => Forall (fun t => exists r, fromJWSString w t = Ok r) (gr_texts g)) gs.
