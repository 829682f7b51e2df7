(** Loaded specs that can be saved again. *)

From Verif Require Export Spec.Consistent Spec.Consistent22 Spec.Loaded Spec.Rewrite Spec.Steps.

Section Roomy.
Variable c : cfg.

Definition roomy_point (p : PointEntity) : Prop := fits c sz_int (zlen (pe_phys p)).
Definition roomy_entity (e : Entity) : Prop := fits c sz_int (zlen (en_phys e)) /\ fits c sz_int (zlen (en_bnd e)).
Definition roomy_data (d : Data) : Prop :=
  fits c sz_string (zlen (string_tags (d_header d))) /\ fits c sz_double (zlen (real_tags (d_header d))) /\
  fits c sz_int (zlen (int_tags (d_header d))) /\ fits c sz_DataEntry (zlen (d_entries d)) /\
  Forall (fun e => fits c sz_double (zlen (de_data e))) (d_entries d).

(** The vectors of a spec fit in memory, one by one. *)
Record roomy (s : MshSpec) : Prop := {
  rm_nodes : fits c sz_NodeBlock (zlen (n_blocks (nodes s)));
  rm_node_blocks : Forall (fun b => fits c sz_size (zlen (nb_tags b)) /\ fits c sz_double (zlen (nb_data b))) (n_blocks (nodes s));
  rm_elements : fits c sz_ElementBlock (zlen (e_blocks (elements s)));
  rm_element_blocks : Forall (fun b => fits c sz_size (zlen (eb_data b))) (e_blocks (elements s));
  rm_points : fits c sz_PointEntity (zlen (points (entities s))) /\ Forall roomy_point (points (entities s));
  rm_curves : fits c sz_Entity (zlen (curves_e (entities s))) /\ Forall roomy_entity (curves_e (entities s));
  rm_surfaces : fits c sz_Entity (zlen (surfaces_e (entities s))) /\ Forall roomy_entity (surfaces_e (entities s));
  rm_volumes : fits c sz_Entity (zlen (volumes_e (entities s))) /\ Forall roomy_entity (volumes_e (entities s));
  rm_groups : fits c sz_PhysicalGroup (zlen (physical_groups s));
  rm_data : Forall roomy_data (node_data s ++ element_data s ++ element_node_data s);
  rm_spline_curves : fits c sz_Curve (zlen (curves s)) /\ Forall (fun k => fits c sz_double (zlen (cv_data k))) (curves s);
  rm_patches : fits c sz_Patch (zlen (patches s)) /\ Forall (fun k => fits c sz_double (zlen (pt_data k))) (patches s) }.
End Roomy.

(** No negative counts and no counts whose product exceeds size_t. *)
Record sober (s : MshSpec) : Prop := {
  sb_nodes : Forall (fun b => 0 <= node_width b /\ nb_num b * node_width b < 2 ^ 64) (n_blocks (nodes s));
  sb_elements : Forall (fun b => forall n, gmsh_nodes (eb_type b) = Some n -> eb_num b * (n + 1) < 2 ^ 64) (e_blocks (elements s));
  sb_data : Forall (fun d => Forall (fun i => 0 <= i) (firstn 2 (skipn 1 (int_tags (d_header d)))))
              (node_data s ++ element_data s ++ element_node_data s);
  sb_npe : Forall (fun d => Forall (fun e => 0 <= de_npe e) (d_entries d)) (element_node_data s);
  sb_curves : Forall (fun k => cv_ncp k * cp_dim (cv_weights k) + cv_nknots k < 2 ^ 64) (curves s);
  sb_patches : Forall (fun k => pt_ncp k * cp_dim (pt_weights k) + pt_nu k + pt_nv k < 2 ^ 64) (patches s) }.

(** What text files can hold: finite numbers only, and a parametric flag that
    load_nodes_ascii does not reject with its assert. *)
Record textual (c : cfg) (s : MshSpec) : Prop := {
  tx_nodes : Forall (fun b => Forall finite (nb_data b) /\ (ndebug c = false -> 0 <= nb_parametric b <= 3)) (n_blocks (nodes s));
  tx_points : Forall (fun p => finite (pe_x p) /\ finite (pe_y p) /\ finite (pe_z p)) (points (entities s));
  tx_entities : Forall (fun e => (finite (en_min_x e) /\ finite (en_min_y e) /\ finite (en_min_z e)) /\
                  finite (en_max_x e) /\ finite (en_max_y e) /\ finite (en_max_z e))
                  (curves_e (entities s) ++ surfaces_e (entities s) ++ volumes_e (entities s));
  tx_data : Forall (fun d => Forall (fun e => Forall finite (de_data e)) (d_entries d))
              (node_data s ++ element_data s ++ element_node_data s);
  tx_curves : Forall (fun k => Forall finite (cv_data k)) (curves s);
  tx_patches : Forall (fun k => Forall finite (pt_data k)) (patches s) }.

(** Every mesh section met is read as version 4.1. *)
Definition sections_41 (c : cfg) (b : bytes) : Prop :=
  forall name spec s, meets c b name spec s ->
    name = str "$Nodes" \/ name = str "$Elements" -> version (mesh_format spec) = str "4.1".
