(** C03, C04, C32, C33, C41: round trips of version 2.2. *)

From Verif Require Import Model.Save Spec.Consistent22 Spec.Rounding Tests.Examples Tests.Examples22 Tests.ExamplesRt22
  Proofs.Final Proofs.Final22.

Theorem C03_ascii22_roundtrip : exists r : dbl -> dbl,
  (forall x, size_ok x -> finite x -> six_digits_of x (r x)) /\
  forall c s, consistent22 c true s ->
    exists b s', save_msh c s = (b, Ok tt) /\ load_msh c b = Ok s' /\ kept22 c true r s s'.
Proof. exact (rt22 true). Qed.
Print Assumptions C03_ascii22_roundtrip.

Example C03_hyp : consistent22 c_debug true (ex_spec (str "2.2") true).
Proof. exact (ex_spec_22 false true). Qed.

Theorem C04_binary22_roundtrip : exists r : dbl -> dbl,
  (forall x, size_ok x -> finite x -> six_digits_of x (r x)) /\
  forall c s, consistent22 c false s ->
    exists b s', save_msh c s = (b, Ok tt) /\ load_msh c b = Ok s' /\ kept22 c false r s s'.
Proof. exact (rt22 false). Qed.
Print Assumptions C04_binary22_roundtrip.

Example C04_hyp : consistent22 c_debug false (ex_spec (str "2.2") false).
Proof. exact (ex_spec_22 false false). Qed.

(** Tags below 2^31: the nodes are the same, bit for bit, and so are the
    elements but for the dimension, which is that of their type. *)
Theorem C04_exact : exists r : dbl -> dbl,
  (forall x, size_ok x -> finite x -> six_digits_of x (r x)) /\
  forall c s, consistent22 c false s ->
    Forall (fun n => 0 <= n_tag n < 2 ^ 31) (mesh_nodes (nodes s)) ->
    Forall (fun e => 0 <= el_tag e < 2 ^ 31 /\ Forall (fun t => 0 <= t < 2 ^ 31) (el_nodes e)) (mesh_elements (elements s)) ->
    exists b s', save_msh c s = (b, Ok tt) /\ load_msh c b = Ok s' /\ kept22 c false r s s' /\
      mesh_nodes (nodes s') = mesh_nodes (nodes s) /\
      Forall2 (fun e e' => el_tag e' = el_tag e /\ el_type e' = el_type e /\ el_ent e' = el_ent e /\
                           el_nodes e' = el_nodes e /\ gmsh_dim (el_type e) = Some (el_dim e'))
        (mesh_elements (elements s)) (mesh_elements (elements s')).
Proof.
  destruct (rt22 false) as (r & R & T). exists r. split; [exact R|]. intros c s H HN HE.
  destruct (T c s H) as (b & s' & E1 & E2 & K). exists b, s'. split; [exact E1|]. split; [exact E2|]. split; [exact K|].
  rewrite (k22_nodes _ _ _ _ _ K), (k22_elements _ _ _ _ _ K). split.
  - exact (nodes_22_small r s HN).
  - exact (elements_22_small s HE).
Qed.
Print Assumptions C04_exact.

(** C32 is false: after loading this file, saving and loading again there is
    no physical tag left. *)
Theorem C32_refuted : exists c b s b' s',
  load_msh c b = Ok s /\ save_msh c s = (b', Ok tt) /\ load_msh c b' = Ok s' /\
  mesh_elements (elements s') = mesh_elements (elements s) /\
  map pe_phys (points (entities s)) = [[9]] /\ map en_phys (curves_e (entities s)) = [[3]] /\
  map en_phys (surfaces_e (entities s)) = [[2; 3]] /\
  entities s' = {| points := []; curves_e := []; surfaces_e := []; volumes_e := [] |}.
Proof.
  exists c_release, ex_ascii22. eexists. eexists. eexists.
  split; [vm_compute; reflexivity|]. split; [vm_compute; reflexivity|]. split; [vm_compute; reflexivity|].
  repeat split; vm_compute; reflexivity.
Qed.
Print Assumptions C32_refuted.

(** The loss is total: the bytes do not depend on the entities, and none are
    found in a saved file. *)
Theorem C32_not_written : forall c s en, version (mesh_format s) = str "2.2" ->
  save_msh c (set_entities en s) = save_msh c s.
Proof. exact save_no_entities. Qed.
Print Assumptions C32_not_written.

Theorem C32_none_left : forall c a s, consistent22 c a s ->
  exists b s', save_msh c s = (b, Ok tt) /\ load_msh c b = Ok s' /\
    entities s' = {| points := []; curves_e := []; surfaces_e := []; volumes_e := [] |}.
Proof.
  intros c a s H. destruct (rt22 a) as (r & _ & T). destruct (T c s H) as (b & s' & E1 & E2 & K).
  exists b, s'. split; [exact E1|]. split; [exact E2|]. exact (k22_entities _ _ _ _ _ K).
Qed.
Print Assumptions C32_none_left.

(** C33 is false: node tag 2^31, element tag 2^32 + 5 and data tag 2^31. *)
Theorem C33_refuted : exists c s b s',
  consistent22 c false s /\ save_msh c s = (b, Ok tt) /\ load_msh c b = Ok s' /\
  map n_tag (mesh_nodes (nodes s)) = [2 ^ 31] /\ map n_tag (mesh_nodes (nodes s')) = [2 ^ 64 - 2 ^ 31] /\
  map el_tag (mesh_elements (elements s)) = [2 ^ 32 + 5] /\ map el_tag (mesh_elements (elements s')) = [5] /\
  map (fun d => map de_tag (d_entries d)) (node_data s) = [[2 ^ 31]] /\
  map (fun d => map de_tag (d_entries d)) (node_data s') = [[2 ^ 64 - 2 ^ 31]].
Proof.
  destruct (rt22 false) as (r & _ & T). pose proof big_tags_22 as H.
  destruct (T c_release big_tags H) as (b & s' & E1 & E2 & K).
  exists c_release, big_tags, b, s'. split; [exact H|]. split; [exact E1|]. split; [exact E2|].
  rewrite (k22_nodes _ _ _ _ _ K), (k22_elements _ _ _ _ _ K), (proj1 (k22_data _ _ _ _ _ K)).
  repeat split; vm_compute; reflexivity.
Qed.
Print Assumptions C33_refuted.

(** What comes back: [tag32], for node tags, element tags, references and data
    tags of 2.2 binary files ... *)
Theorem C33_binary22 : forall c s, consistent22 c false s ->
  exists b s', save_msh c s = (b, Ok tt) /\ load_msh c b = Ok s' /\
    map n_tag (mesh_nodes (nodes s')) = map tag32 (map n_tag (mesh_nodes (nodes s))) /\
    map el_tag (mesh_elements (elements s')) = map tag32 (map el_tag (mesh_elements (elements s))) /\
    map el_nodes (mesh_elements (elements s')) = map (map tag32) (map el_nodes (mesh_elements (elements s))) /\
    forall get, In get [node_data; element_data; element_node_data] ->
      map (fun d => map de_tag (d_entries d)) (get s') = map (fun d => map tag32 (map de_tag (d_entries d))) (get s).
Proof.
  intros c s H. destruct (rt22 false) as (r & _ & T). destruct (T c s H) as (b & s' & E1 & E2 & K).
  exists b, s'. split; [exact E1|]. split; [exact E2|].
  rewrite (k22_nodes _ _ _ _ _ K), (k22_elements _ _ _ _ _ K). unfold nodes_22, elements_22. rewrite !map_map.
  repeat (split; [reflexivity|]). destruct (k22_data _ _ _ _ _ K) as (D1 & D2 & D3).
  intros get [<-|[<-|[<-|[]]]]; rewrite ?D1, ?D2, ?D3; rewrite map_map; apply map_ext; intro d;
    cbn [data_via d_entries]; rewrite !map_map; reflexivity.
Qed.
Print Assumptions C33_binary22.

(** ... and for the data tags of 4.1 binary files, whose other tags are kept. *)
Theorem C33_binary41 : forall c s, consistent41 c false s ->
  exists b s', save_msh c s = (b, Ok tt) /\ load_msh c b = Ok s' /\
    (n_num_nodes (nodes s) <> 0 -> map nb_tags (n_blocks (nodes s')) = map nb_tags (n_blocks (nodes s))) /\
    (e_num_elements (elements s) <> 0 -> map eb_data (e_blocks (elements s')) = map eb_data (e_blocks (elements s))) /\
    forall get, In get [node_data; element_data; element_node_data] ->
      map (fun d => map de_tag (d_entries d)) (get s') = map (fun d => map tag32 (map de_tag (d_entries d))) (get s).
Proof.
  intros c s H. destruct (rt41 false) as (r & _ & T). destruct (T c s H) as (b & E1 & E2).
  exists b. eexists. split; [exact E1|]. split; [exact E2|].
  cbn [via41 nodes elements]. unfold nodes_via, elements_via. split; [|split].
  - intro N. apply Z.eqb_neq in N. rewrite N. cbn [n_blocks]. rewrite map_map. reflexivity.
  - intro N. apply Z.eqb_neq in N. rewrite N. reflexivity.
  - intros get [<-|[<-|[<-|[]]]]; cbn [via41 node_data element_data element_node_data]; rewrite map_map; apply map_ext; intro d;
      cbn [data_via d_entries]; rewrite !map_map; reflexivity.
Qed.
Print Assumptions C33_binary41.

(** The tags that survive. *)
Theorem C33_kept : forall t, size_ok t ->
  (tag32 t = t <-> t < 2 ^ 31 \/ 2 ^ 64 - 2 ^ 31 <= t) /\
  tag32 t mod 2 ^ 32 = t mod 2 ^ 32 /\
  (0 <= tag32 t < 2 ^ 31 \/ 2 ^ 64 - 2 ^ 31 <= tag32 t < 2 ^ 64).
Proof. intros t H. split; [exact (tag32_same t H)|]. split; [exact (tag32_mod t)|exact (tag32_range t)]. Qed.
Print Assumptions C33_kept.

Example C33_hyp : consistent22 c_release false big_tags.
Proof. exact big_tags_22. Qed.

(** C41 for version 2.2. *)
Theorem C41_kept22 : exists r : dbl -> dbl,
  (forall x, size_ok x -> finite x -> six_digits_of x (r x)) /\
  forall c a s, nanospline c = true -> consistent22 c a s ->
    exists b s', save_msh c s = (b, Ok tt) /\ load_msh c b = Ok s' /\
      ns_version s' = ns_version s /\ curves s' = map (curve_via a r) (curves s) /\
      patches s' = map (patch_via a r) (patches s).
Proof. exact splines_kept22. Qed.
Print Assumptions C41_kept22.
