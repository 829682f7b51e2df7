(** C05-C08, C18, C21, C39, C40: what a 2.2 file is loaded as.

    [file_of ascii ps b]: the bytes [b] are a 2.2 header and the sections [ps],
    each a list of nodes or of element records, in any order and number, with
    any whitespace.  [loadable c ps lo hi]: there are nodes, [lo] and [hi] are
    the least and greatest tag, references lie between, memory suffices.
    The theorems ending in [_any] are about arbitrary bytes: [file_22 c b raw]
    says that the section loop ends with [raw] after reading its mesh sections
    as 2.2, and what the regrouping made of [raw] is described. *)

From Verif Require Import Model.LoadMsh Spec.Text22 Tests.Examples Tests.Examples22 Proofs.File22P Proofs.Text22P Proofs.RegroupP Proofs.Trace.

(** The nodes in file order; nonempty runs; counts. *)
Theorem C05_nodes : forall c ascii ps b lo hi, file_of ascii ps b -> Forall (part_ok ascii) ps ->
  loadable c ps lo hi -> exists s, load_msh c b = Ok s /\
    flat_map block_nodes (n_blocks (nodes s)) = all_nodes ps /\
    Forall (fun b => nb_parametric b = 0 /\ nb_num b = zlen (nb_tags b) /\
                     zlen (nb_data b) = 3 * zlen (nb_tags b) /\ nb_tags b <> []) (n_blocks (nodes s)) /\
    n_num_blocks (nodes s) = zlen (n_blocks (nodes s)) /\
    neighbours_differ (fun b => (nb_dim b, nb_tag b)) (n_blocks (nodes s)).
Proof.
  intros c ascii ps b lo hi F O L. destruct (file_loads c ascii ps b lo hi F O L) as (s & E & M).
  exists s. split; [exact E|]. split; [exact (mo_nodes _ _ _ _ _ M)|].
  pose proof (mo_consistent _ _ _ _ _ M) as K. split; [|split; [exact (c22_node_num _ K)|exact (mo_node_runs _ _ _ _ _ M)]].
  pose proof (c22_nodes _ K) as K1. pose proof (mo_node_full _ _ _ _ _ M) as K2. rewrite Forall_forall in *.
  intros x Hx. destruct (K1 x Hx) as [X1 X2 X3 X4 X5 X6 X7]. rewrite <- X4. auto.
Qed.
Print Assumptions C05_nodes.

Theorem C05_nodes_any : forall c b raw s, file_22 c b raw -> load_msh c b = Ok s ->
  flat_map block_nodes (n_blocks (nodes s)) = flat_map block_nodes (n_blocks (nodes raw)) /\
  Forall (fun b => nb_parametric b = 0 /\ nb_num b = zlen (nb_tags b) /\
                   zlen (nb_data b) = 3 * zlen (nb_tags b) /\ nb_tags b <> []) (n_blocks (nodes s)) /\
  n_num_blocks (nodes s) = zlen (n_blocks (nodes s)) /\
  neighbours_differ (fun b => (nb_dim b, nb_tag b)) (n_blocks (nodes s)).
Proof.
  intros c b raw s F E. destruct (load22 c b raw s F E) as [R _]. split; [exact (rgd_nodes _ _ R)|].
  split; [|split; [exact (rgd_node_num _ _ R)|exact (rgd_node_runs _ _ R)]].
  pose proof (rgd_node_blocks _ _ R) as K1. pose proof (rgd_node_full _ _ R) as K2. rewrite Forall_forall in *.
  intros x Hx. destruct (K1 x Hx) as [X1 X2 X3 X4 X5 X6 X7]. rewrite <- X4. auto.
Qed.
Print Assumptions C05_nodes_any.

(** The block of a node: the last element of the file having the node. *)
Theorem C06_class : forall c ascii ps b lo hi, file_of ascii ps b -> Forall (part_ok ascii) ps ->
  loadable c ps lo hi -> exists s, load_msh c b = Ok s /\
    forall blk t, In blk (n_blocks (nodes s)) -> In t (nb_tags blk) ->
      classified (map rec_element (all_recs ps)) t (nb_dim blk, nb_tag blk).
Proof.
  intros c ascii ps b lo hi F O L. destruct (file_loads c ascii ps b lo hi F O L) as (s & E & M).
  exists s. split; [exact E|exact (mo_class _ _ _ _ _ M)].
Qed.
Print Assumptions C06_class.

Theorem C06_class_any : forall c b raw s, file_22 c b raw -> load_msh c b = Ok s ->
  forall blk t, In blk (n_blocks (nodes s)) -> In t (nb_tags blk) ->
    classified (mesh_elements (elements raw)) t (nb_dim blk, nb_tag blk).
Proof. intros c b raw s F E. destruct (load22 c b raw s F E) as [R _]. exact (rgd_class _ _ R). Qed.
Print Assumptions C06_class_any.

(** The elements in file order; nonempty runs; counts. *)
Theorem C07_elements : forall c ascii ps b lo hi, file_of ascii ps b -> Forall (part_ok ascii) ps ->
  loadable c ps lo hi -> exists s, load_msh c b = Ok s /\
    flat_map block_elements (e_blocks (elements s)) = map rec_element (all_recs ps) /\
    Forall element_block_22 (e_blocks (elements s)) /\
    Forall (fun b => 0 < eb_num b) (e_blocks (elements s)) /\
    e_num_blocks (elements s) = zlen (e_blocks (elements s)) /\
    neighbours_differ (fun b => (eb_dim b, eb_tag b, eb_type b)) (e_blocks (elements s)).
Proof.
  intros c ascii ps b lo hi F O L. destruct (file_loads c ascii ps b lo hi F O L) as (s & E & M).
  exists s. split; [exact E|]. split; [exact (mo_elements _ _ _ _ _ M)|].
  pose proof (mo_consistent _ _ _ _ _ M) as K. split; [exact (c22_elements _ K)|].
  split; [exact (mo_element_full _ _ _ _ _ M)|]. split; [exact (c22_element_num _ K)|exact (mo_element_runs _ _ _ _ _ M)].
Qed.
Print Assumptions C07_elements.

Theorem C07_elements_any : forall c b raw s, file_22 c b raw -> load_msh c b = Ok s ->
  flat_map block_elements (e_blocks (elements s)) = flat_map block_elements (e_blocks (elements raw)) /\
  Forall element_block_22 (e_blocks (elements s)) /\
  Forall (fun b => 0 < eb_num b) (e_blocks (elements s)) /\
  e_num_blocks (elements s) = zlen (e_blocks (elements s)) /\
  neighbours_differ (fun b => (eb_dim b, eb_tag b, eb_type b)) (e_blocks (elements s)).
Proof.
  intros c b raw s F E. destruct (load22 c b raw s F E) as [R I]. split; [exact (rgd_elements _ _ R)|].
  split; [exact (rgd_element_blocks _ _ R)|]. split; [|split; [exact (rgd_element_num _ _ R)|exact (rgd_element_runs _ _ R)]].
  apply (rgd_element_full _ _ R). eapply Forall_impl; [|exact (iv_one c raw I)]. cbn beta. intros x ->. reflexivity.
Qed.
Print Assumptions C07_elements_any.

(** The entities, section by section. *)
Theorem C08_entities : forall c ascii ps b lo hi, file_of ascii ps b -> Forall (part_ok ascii) ps ->
  loadable c ps lo hi -> exists s, load_msh c b = Ok s /\
    entities_from ps {| points := []; curves_e := []; surfaces_e := []; volumes_e := [] |} (entities s).
Proof.
  intros c ascii ps b lo hi F O L. destruct (file_loads c ascii ps b lo hi F O L) as (s & E & M).
  exists s. split; [exact E|exact (mo_entities _ _ _ _ _ M)].
Qed.
Print Assumptions C08_entities.

(** For any bytes: an $Elements section that is read adds elements and the
    entities belonging to the same records. *)
Theorem C08_entities_any : forall c b spec s spec' s', sections_22 c b -> meets c b (str "$Elements") spec s ->
  dispatch c (str "$Elements") spec s = Ok (spec', s') ->
  exists recs, elements_appended c (elements spec) (elements spec') recs /\
    entities_added recs (entities spec) (entities spec').
Proof. exact section_recs. Qed.
Print Assumptions C08_entities_any.

Theorem C18_consistent : forall c b s, load_msh c b = Ok s -> sections_22 c b ->
  version (mesh_format s) = str "2.2" ->
  consistent_22 s /\ Forall (fun b => nb_tags b <> []) (n_blocks (nodes s)) /\
  Forall (fun b => 0 < eb_num b) (e_blocks (elements s)).
Proof. exact consistent22. Qed.
Print Assumptions C18_consistent.

Theorem C21_safe : forall c b raw, file_22 c b raw ->
  n_min (nodes raw) <= n_max (nodes raw) ->
  fits c sz_size (n_max (nodes raw) - n_min (nodes raw) + 1) ->
  (references_in_range raw /\ exists s, load_msh c b = Ok s) \/
  (~ references_in_range raw /\ load_msh c b = Undef OutOfBounds).
Proof. exact safe22. Qed.
Print Assumptions C21_safe.

(** All nodes, their number and tag range. *)
Theorem C39_nodes : forall c ascii ps b lo hi, file_of ascii ps b -> Forall (part_ok ascii) ps ->
  loadable c ps lo hi -> exists s, load_msh c b = Ok s /\
    flat_map block_nodes (n_blocks (nodes s)) = flat_map part_nodes ps /\
    n_num_nodes (nodes s) = to_size (zlen (flat_map part_nodes ps)) /\
    n_min (nodes s) = lo /\ n_max (nodes s) = hi.
Proof.
  intros c ascii ps b lo hi F O L. destruct (file_loads c ascii ps b lo hi F O L) as (s & E & M).
  exists s. split; [exact E|]. split; [exact (mo_nodes _ _ _ _ _ M)|]. split; [exact (mo_num_nodes _ _ _ _ _ M)|].
  split; [exact (mo_min _ _ _ _ _ M)|exact (mo_max _ _ _ _ _ M)].
Qed.
Print Assumptions C39_nodes.

Theorem C39_section_any : forall c b spec s spec' s', sections_22 c b -> meets c b (str "$Nodes") spec s ->
  dispatch c (str "$Nodes") spec s = Ok (spec', s') ->
  exists rows, nodes_appended (prior_nodes (nodes spec)) (nodes spec') rows /\
    mesh_nodes (nodes spec') = mesh_nodes (nodes spec) ++ rows.
Proof. exact section_nodes. Qed.
Print Assumptions C39_section_any.

Theorem C39_bounds_any : forall c b s, load_msh c b = Ok s -> sections_22 c b ->
  version (mesh_format s) = str "2.2" ->
  n_num_nodes (nodes s) = to_size (zlen (mesh_nodes (nodes s))) /\
  (mesh_nodes (nodes s) <> [] ->
   least SIZE_MAX (map n_tag (mesh_nodes (nodes s))) (n_min (nodes s)) /\
   greatest 0 (map n_tag (mesh_nodes (nodes s))) (n_max (nodes s))).
Proof. exact bounds22. Qed.
Print Assumptions C39_bounds_any.

(** ASCII: elements, count and id range accumulate. *)
Theorem C40_ascii : forall c ps b lo hi, file_of true ps b -> Forall (part_ok true) ps ->
  loadable c ps lo hi -> exists s, load_msh c b = Ok s /\
    flat_map block_elements (e_blocks (elements s)) = map rec_element (flat_map part_recs ps) /\
    e_num_elements (elements s) = to_size (zlen (flat_map part_recs ps)) /\
    (flat_map part_recs ps <> [] -> Forall (fun r => 0 <= er_id r) (flat_map part_recs ps) ->
       least SIZE_MAX (map er_id (flat_map part_recs ps)) (e_min (elements s)) /\
       greatest 0 (map er_id (flat_map part_recs ps)) (e_max (elements s))).
Proof.
  intros c ps b lo hi F O L. destruct (file_loads c true ps b lo hi F O L) as (s & E & M).
  exists s. split; [exact E|]. split; [exact (mo_elements _ _ _ _ _ M)|]. split; [exact (mo_num_elements _ _ _ _ _ M)|].
  exact (mo_ids _ _ _ _ _ M).
Qed.
Print Assumptions C40_ascii.

(** Binary: the elements accumulate, num_elements is that of the last section. *)
Theorem C40_binary : forall c ps b lo hi, file_of false ps b -> Forall (part_ok false) ps ->
  loadable c ps lo hi -> exists s, load_msh c b = Ok s /\
    flat_map block_elements (e_blocks (elements s)) = map rec_element (flat_map part_recs ps) /\
    e_num_elements (elements s) = zlen (last_recs ps []).
Proof.
  intros c ps b lo hi F O L. destruct (file_loads c false ps b lo hi F O L) as (s & E & M).
  exists s. split; [exact E|]. split; [exact (mo_elements _ _ _ _ _ M)|]. exact (mo_num_elements _ _ _ _ _ M).
Qed.
Print Assumptions C40_binary.

Theorem C40_refuted : exists c ps b lo hi s, file_of false ps b /\ Forall (part_ok false) ps /\
  loadable c ps lo hi /\ load_msh c b = Ok s /\
  e_num_elements (elements s) <> zlen (flat_map part_recs ps).
Proof.
  destruct (C40_binary c_release ex_parts ex_binary22 1 5 ex_file_binary (ex_parts_ok false)
    (ex_loadable c_release eq_refl)) as (s & E & _ & N).
  exists c_release, ex_parts, ex_binary22, 1, 5, s.
  split; [exact ex_file_binary|]. split; [apply ex_parts_ok|]. split; [apply ex_loadable; reflexivity|].
  split; [exact E|]. rewrite N. discriminate.
Qed.
Print Assumptions C40_refuted.

(** The example files: two $Nodes and two $Elements sections. *)
Example C05_ex : forall a : bool, exists s, load_msh c_debug (if a then ex_ascii22 else ex_binary22) = Ok s /\
  flat_map block_nodes (n_blocks (nodes s)) = [ex_n1; ex_n2; ex_n5; ex_n3].
Proof.
  intro a. destruct (C05_nodes c_debug a ex_parts (if a then ex_ascii22 else ex_binary22) 1 5) as (s & E & N & _).
  - destruct a; [exact ex_file_ascii|exact ex_file_binary].
  - apply ex_parts_ok.
  - apply ex_loadable. reflexivity.
  - exists s. auto.
Qed.

(** Node 5 lies on the second triangle, not on the line read before. *)
Example C06_ex : forall dt, classified (map rec_element (all_recs ex_parts)) 5 dt -> dt = (2, 6).
Proof.
  intros dt [(l & e & r & E & I & N & ->)|[N ->]].
  - destruct l as [|? [|? [|? [|? l]]]]; cbn in E; injection E; intros; subst; cbn in I.
    + destruct I as [I|I]; [discriminate I|destruct I].
    + exfalso. apply (N (rec_element ex_r9)); [cbn; tauto|cbn; tauto].
    + exfalso. apply (N (rec_element ex_r9)); [cbn; tauto|cbn; tauto].
    + reflexivity.
    + destruct l; discriminate.
  - exfalso. apply (N (rec_element ex_r9)); [cbn; tauto|cbn; tauto].
Qed.

Example C08_ex : exists s, load_msh c_debug ex_ascii22 = Ok s /\
  points (entities s) = [{| pe_tag := 4; pe_x := 0; pe_y := 0; pe_z := 0; pe_phys := [9] |}] /\
  map (fun e => (en_tag e, en_phys e)) (surfaces_e (entities s)) = [(6, [2; 3])].
Proof. eexists. split; [vm_compute; reflexivity|]. split; reflexivity. Qed.

(** An element with a node tag outside [1,5]. *)
Definition ex_bad22 : bytes := str "$MeshFormat
2.2 0 8
$EndMeshFormat
$Nodes
2
1 0 0 0
5 1 0 0
$EndNodes
$Elements
1
1 15 2 9 4 6
$EndElements
".

(** Both cases of C21, and the hypotheses of the theorems about any bytes. *)
Example C21_ex : 
  (exists raw, file_22 c_release ex_bad22 raw /\ n_min (nodes raw) <= n_max (nodes raw) /\
     fits c_release sz_size (n_max (nodes raw) - n_min (nodes raw) + 1)) /\
  load_msh c_release ex_bad22 = Undef OutOfBounds.
Proof.
  split; [|vm_compute; reflexivity].
  destruct (trace is_22 c_release (S (S (List.length ex_bad22))) spec_default (opened ex_bad22)) as [r|] eqn:E;
    [|vm_compute in E; discriminate].
  exists (fst r). split; [apply (trace_22 _ _ _ _ E)|]; vm_compute in E; injection E as <-; [reflexivity|].
  unfold fits. cbn. split; [discriminate|split; discriminate].
Qed.
Example C18_ex : forall a : bool, exists s, load_msh c_debug (if a then ex_ascii22 else ex_binary22) = Ok s /\
  sections_22 c_debug (if a then ex_ascii22 else ex_binary22) /\ version (mesh_format s) = str "2.2".
Proof.
  intro a.
  assert (G : exists r, trace is_22 c_debug 100 spec_default (opened (if a then ex_ascii22 else ex_binary22)) = Some r /\
              version (mesh_format (fst r)) = str "2.2" /\
              exists s, load_msh c_debug (if a then ex_ascii22 else ex_binary22) = Ok s /\ version (mesh_format s) = str "2.2").
  { destruct a; (eexists; split; [vm_compute; reflexivity|split; [reflexivity|eexists; split; [vm_compute; reflexivity|reflexivity]]]). }
  destruct G as (r & E & V & s & L & V2). exists s. split; [exact L|]. split; [|exact V2].
  exact (proj1 (proj2 (trace_22 _ _ _ _ E V))).
Qed.
