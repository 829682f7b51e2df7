(** C83: a file is read from front to back, and what its header says is there. *)

From Verif Require Import Model.LoadMsh Model.Save Spec.Order Spec.Files22 Tests.Examples
  Proofs.SkipP Proofs.File22P Proofs.LoadedP Proofs.RewriteP Proofs.MessageP Proofs.OrderP Props.Resave Props.Room.

(** What is left of the file only ever gets shorter from the front. *)
Theorem C83_order : forall c n p q, steps c n p q -> later (stream_of p) (stream_of q).
Proof. exact steps_later. Qed.
Print Assumptions C83_order.

(** Whatever is taken for a section marker stands in the file, just before the rest. *)
Theorem C83_met : forall c b name spec s, meets c b name spec s -> exists u, b = u ++ name ++ rest s.
Proof. exact met_there. Qed.
Print Assumptions C83_met.

(** Of two markers, the one met first stands first and they do not overlap. *)
Theorem C83_sequence : forall c b n1 spec1 s1 n2 spec2 s2 s1' s2' n, reached c b (Main spec1 s1) ->
  rd_token [] s1 = (n1, s1') -> steps c (S n) (Main spec1 s1) (Main spec2 s2) -> rd_token [] s2 = (n2, s2') ->
  exists u w, b = u ++ n1 ++ w ++ n2 ++ rest s2'.
Proof. exact sequence. Qed.
Print Assumptions C83_sequence.

(** The version is the default or one that a header in the file says. *)
Theorem C83_version : forall c b s, load_msh c b = Ok s ->
  version (mesh_format s) = str "4.1" \/ says_version (version (mesh_format s)) b.
Proof.
  intros c b s HL. destruct (load_ends c b s HL) as (raw & (s0 & R & _) & HP). destruct (post_data c raw s HP) as (_ & _ & _ & EF).
  rewrite EF. exact (version_said c b _ R).
Qed.
Print Assumptions C83_version.

(** Unless some header says 2.2, everything is read as version 4.1. *)
Theorem C83_plain : forall c b, ~ says_version (str "2.2") b ->
  sections_41 c b /\ forall s, load_msh c b = Ok s -> version (mesh_format s) = str "4.1".
Proof.
  intros c b N. assert (G : forall p, reached c b p -> version (mesh_format (spec_of p)) = str "4.1").
  { apply (reached_inv c b (fun sp => version (mesh_format sp) = str "4.1")); [reflexivity|].
    intros name spec s spec' s' (s0 & R & E0 & ET) IS HI ED.
    assert (R' : reached c b (Fwd (end_marker name) [] spec' s')).
    { eapply reached_step; [exact R|]. eapply step_section; eassumption. }
    destruct (version_said c b _ R') as [V|V]; [exact V|]. cbn [spec_of] in V.
    destruct (dispatch_version c name spec (or_introl HI) _ _ _ ED) as [K|K]; [exact K|]. change (version (mesh_format spec') = str "2.2") in K. rewrite K in V. contradiction. }
  split.
  - intros name spec s (s0 & R & _) _. exact (G _ R).
  - intros s HL. destruct (load_ends c b s HL) as (raw & (s0 & R & _) & HP). destruct (post_data c raw s HP) as (_ & _ & _ & EF).
    rewrite EF. exact (G _ R).
Qed.
Print Assumptions C83_plain.

(** So such a file, if it loads, can be saved and loaded again in the memory it was loaded in. *)
Theorem C83_again : forall c c' b s, 0 <= mem c <= mem c' -> ~ says_version (str "2.2") b ->
  load_msh c b = Ok s -> sober s -> lossless c' s ->
  exists b', save_msh c' (as_type false s) = (b', Ok tt) /\ load_msh c' b' = Ok (as_type false s).
Proof.
  intros c c' b s M N L S LL. destruct (C83_plain c b N) as [V4 V]. exact (C82_lossless c c' b s M L V4 (V s L) S LL).
Qed.
Print Assumptions C83_again.

(** ** Cases *)

(** "2.2" may occur elsewhere. *)
Definition ex_plain : bytes := str "$MeshFormat 4.1 0 8 $EndMeshFormat 2.2 $Nodes 1 2 7 8 0 1 0 2 7 8 0 0 0 0 0 0 $EndNodes $Elements 1 1 1 1 1 1 1 1 1 7 8".

Example C83_hyp : 0 <= mem (c_tight 72) <= mem (c_tight 72) /\ ~ says_version (str "2.2") ex_plain /\
  load_msh (c_tight 72) ex_plain = Ok ex_junk_spec /\ sober ex_junk_spec /\ lossless (c_tight 72) ex_junk_spec.
Proof.
  destruct C82_hyp as (M & _ & _ & _ & S & _ & L). split; [exact M|].
  split; [intro H; apply says_22_true in H; vm_compute in H; discriminate|]. split; [vm_compute; reflexivity|]. auto.
Qed.

(** A marker that is met, and the version of another file. *)
Example C83_met_hyp : meets c_debug (str "a $Nodes 5") (str "$Nodes") spec_default (opened (str " 5")).
Proof.
  exists (opened (str " $Nodes 5")). split; [|split; reflexivity]. exists 1%nat.
  eapply steps_S; [|apply steps_0]. eapply step_word; reflexivity.
Qed.

Example C83_version_hyp : exists s, load_msh c_debug (str "$MeshFormat 2.2 0 8 $EndMeshFormat ") = Ok s /\ version (mesh_format s) = str "2.2".
Proof. eexists. split; [vm_compute; reflexivity|reflexivity]. Qed.

Example C83_sequence_hyp : exists s1 s1' s2 s2' n spec, reached c_debug (str "$A $EndA $B") (Main spec_default s1) /\ rd_token [] s1 = (str "$A", s1') /\
  steps c_debug (S n) (Main spec_default s1) (Main spec s2) /\ rd_token [] s2 = (str "$B", s2').
Proof.
  exists (opened (str "$A $EndA $B")), (opened (str " $EndA $B")), (opened (str " $B")).
  eexists; exists 2%nat, spec_default. split; [exists 0%nat; apply steps_0|]. split; [reflexivity|]. split; [|reflexivity].
  eapply steps_S; [eapply step_section; reflexivity|]. eapply steps_S; [eapply step_skip; [reflexivity|discriminate|reflexivity]|].
  eapply steps_S; [eapply step_found; right; reflexivity|]. apply steps_0.
Qed.
