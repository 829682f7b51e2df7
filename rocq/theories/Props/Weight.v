(** C56: a mesh is no larger than the file it comes from, in debug builds. *)

From Verif Require Import Model.LoadMsh Spec.Weight Spec.Steps Spec.Ranges Tests.Examples Proofs.BytesP Proofs.Trace Proofs.HazardsP Proofs.WeightP Proofs.BigP.
From Verif Require Props.Loaded.

(** Any file: group names, node tags, data sections. *)
Theorem C56_common : forall c b s, ndebug c = false -> load_msh c b = Ok s -> common_weight s <= zlen b.
Proof. exact common_fits. Qed.
Print Assumptions C56_common.

(** Files whose mesh sections are read as 4.1: also entities, coordinates,
    elements. *)
Theorem C56_mesh : forall c b s, ndebug c = false -> all_41 c b -> load_msh c b = Ok s -> common_weight s + mesh_weight s <= zlen b.
Proof. exact mesh_fits. Qed.
Print Assumptions C56_mesh.

(** In particular the numbers of nodes and elements. *)
Theorem C56_counts : forall c b s, ndebug c = false -> all_41 c b -> load_msh c b = Ok s ->
  zlen (flat_map nb_tags (n_blocks (nodes s))) + zlen (flat_map nb_data (n_blocks (nodes s))) +
  zlen (flat_map eb_data (e_blocks (elements s))) + zlen (physical_groups s) <= zlen b.
Proof.
  intros c b s D A E. pose proof (C56_mesh c b s D A E) as H. rewrite common_split, mesh_split in H.
  assert (W : forall X Y (f : X -> list Y) l, zlen (flat_map f l) = weigh (fun x => zlen (f x)) l).
  { intros X Y f l. induction l as [|x l IH]; [reflexivity|]. cbn [flat_map]. rewrite weigh_cons, <- IH. unfold zlen. rewrite app_length. lia. }
  rewrite !W.
  assert (G : forall X (f g : X -> Z) l, (forall x, f x <= g x) -> weigh f l <= weigh g l).
  { intros X f g l L. induction l as [|x l IH]; [reflexivity|]. rewrite !weigh_cons. specialize (L x). lia. }
  assert (G1 := G _ (fun x => zlen (nb_data x)) (fun x => 4 + zlen (nb_data x)) (n_blocks (nodes s)) ltac:(intro; cbv beta; lia)).
  assert (G2 := G _ (fun x => zlen (eb_data x)) elements_weight (e_blocks (elements s)) ltac:(intro; cbv beta; unfold elements_weight; lia)).
  assert (G3 := G _ (fun _ => 1) group_weight (physical_groups s) ltac:(intro x; cbv beta; unfold group_weight, name_weight; pose proof (zlen_pos _ (pg_name x)); lia)).
  rewrite weigh_ones in G3. fold (groups_weight s) in G3. pose proof (entities_nonneg (entities s)).
  assert (0 <= all_data_weight s).
  { assert (P : forall l, 0 <= weigh data_weight l).
    { intro l. apply weigh_nonneg. intro d. unfold data_weight.
      assert (0 <= weigh name_weight (string_tags (d_header d))) by (apply weigh_nonneg; intro; unfold name_weight; lia).
      assert (0 <= weigh entry_weight (d_entries d)) by (apply weigh_nonneg; intro x; unfold entry_weight; pose proof (zlen_pos _ (de_data x)); lia).
      pose proof (zlen_pos _ (real_tags (d_header d))). pose proof (zlen_pos _ (int_tags (d_header d))). lia. }
    unfold all_data_weight. pose proof (P (node_data s)). pose proof (P (element_data s)). pose proof (P (element_node_data s)). lia. }
  unfold tags_weight in H. lia.
Qed.
Print Assumptions C56_counts.

Example C56_ex : all_41 c_debug Props.Loaded.ex_any /\ exists s, load_msh c_debug Props.Loaded.ex_any = Ok s /\
  common_weight s = 10 /\ mesh_weight s = 26 /\ zlen Props.Loaded.ex_any = 215.
Proof.
  split.
  - set (ok := fun name spec => bytes_eqb name (str "$MeshFormat") || bytes_eqb (version (mesh_format spec)) (str "4.1")).
    assert (G : exists r, trace ok c_debug 100 spec_default (opened Props.Loaded.ex_any) = Some r /\ version (mesh_format (fst r)) = str "4.1").
    { eexists. split; [vm_compute; reflexivity|reflexivity]. }
    destruct G as (r & G & V). split.
    + intros w spec s Mt N. pose proof (trace_meets ok _ _ _ _ G _ _ _ Mt) as K. unfold ok in K.
      destruct N as [-> | ->]; change (bytes_eqb (str _) (str "$MeshFormat")) with false in K; apply bytes_eqb_eq; exact K.
    + intros raw s R E EV. pose proof (trace_ends ok _ _ _ _ G) as EW'.
      rewrite (one_end _ _ raw _ (ex_intro _ s (conj R E)) EW') in EV. rewrite V in EV. discriminate.
  - eexists. split; [vm_compute; reflexivity|]. repeat split; vm_compute; reflexivity.
Qed.

(** Version 2.2. *)
Definition ex_22 : bytes :=
  str "$MeshFormat 2.2 0 8 $EndMeshFormat $PhysicalNames 1 1 3 ""ab"" $EndPhysicalNames $Nodes 2 1 0 0 0 2 0 0 0 $EndNodes $Elements 1 1 1 2 0 1 1 2 $EndElements ".
Example C56_common_ex : exists s, load_msh c_debug ex_22 = Ok s /\ common_weight s = 6 /\ zlen ex_22 = 153.
Proof. eexists. split; [vm_compute; reflexivity|]. split; vm_compute; reflexivity. Qed.

(** In release builds there is no bound: a file of 99 bytes makes any number of
    nodes that fits the memory. *)
Theorem C56_release : forall c n, ndebug c = true -> 0 < n -> fits c 8 (n * 3) -> sz_NodeBlock <= mem c ->
  exists b s, zlen b = 99 /\ load_msh c b = Ok s /\ common_weight s = n /\ mesh_weight s = 4 + n * 3.
Proof.
  intros c n R P F F0. exists (short_nodes n), (big_nodes n). split; [reflexivity|]. split; [apply nodes_big; assumption|].
  assert (Z : forall k, 0 <= k -> zlen (repeat 0 (Z.to_nat k)) = k) by (intros; unfold zlen; rewrite repeat_length; lia).
  unfold common_weight, mesh_weight. cbn -[zlen Z.to_nat Z.add Z.mul repeat]. rewrite !Z by lia. split; lia.
Qed.
Print Assumptions C56_release.

(** Nor for curves, even in debug builds. *)
Theorem C56_curves : forall c n, nanospline c = true -> 0 < n -> fits c 8 (n * 3) -> sz_Curve <= mem c ->
  exists b s, zlen b = 57 + zlen (show_Z n) /\ load_msh c b = Ok s /\ map (fun k => zlen (cv_data k)) (curves s) = [n * 3].
Proof.
  intros c n R P F F0. exists (short_curves n), (big_curves n). split.
  - unfold short_curves. unfold zlen. rewrite !app_length. cbn [List.length]. rewrite !Nat2Z.inj_add. cbn -[show_Z Z.add]. lia.
  - split; [apply curves_big; assumption|]. cbn -[zlen Z.to_nat Z.mul repeat]. unfold zlen. rewrite repeat_length, Z2Nat.id by lia. reflexivity.
Qed.
Print Assumptions C56_curves.

Example C56_release_hyp : 0 < 1000 /\ fits c_release 8 (1000 * 3) /\ sz_NodeBlock <= mem c_release /\
  nanospline c_debug = true /\ fits c_debug 8 (1000 * 3) /\ sz_Curve <= mem c_debug.
Proof. unfold fits. repeat split; try reflexivity; try discriminate; vm_compute; discriminate. Qed.

(** The unrestricted claim. *)
Theorem C56_refuted : exists c b s, load_msh c b = Ok s /\ zlen b < common_weight s.
Proof.
  destruct C56_release_hyp as (P & F & F0 & _).
  destruct (C56_release c_release 1000 eq_refl P F F0) as (b & s & L & E & W & _). exists c_release, b, s. split; [exact E|lia].
Qed.
Print Assumptions C56_refuted.
