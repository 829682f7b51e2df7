(** Meshes the way applications and the tests make them: the points and
    cells of each part, numbered one after the other. *)

From Verif Require Export Spec.Alike Spec.Consistent22.

(** One part of a mesh: its entity, the type of its cells, its points and the
    points of each cell, counted from 0. *)
Record part := { p_entity : Z; p_type : Z; p_points : list (dbl * dbl * dbl); p_cells : list (list Z) }.

Definition p_dim (p : part) : Z := type_dim (p_type p).

(** t, t+1, ... *)
Fixpoint from (t : Z) (n : nat) : list Z := match n with O => [] | S m => t :: from (t + 1) m end.

(** Cells numbered from [e], points from [t]. *)
Fixpoint rows (e t : Z) (cells : list (list Z)) : list Z :=
  match cells with [] => [] | k :: r => (e :: map (Z.add t) k) ++ rows (e + 1) t r end.

Definition xyz (q : dbl * dbl * dbl) : list dbl := let '(x, y, z) := q in [x; y; z].

Fixpoint node_blocks (t : Z) (ps : list part) : list NodeBlock :=
  match ps with
  | [] => []
  | p :: r => {| nb_dim := p_dim p; nb_tag := p_entity p; nb_parametric := 0; nb_num := zlen (p_points p);
                 nb_tags := from t (List.length (p_points p)); nb_data := flat_map xyz (p_points p) |}
              :: node_blocks (t + zlen (p_points p)) r
  end.

Fixpoint element_blocks (e t : Z) (ps : list part) : list ElementBlock :=
  match ps with
  | [] => []
  | p :: r => {| eb_dim := p_dim p; eb_tag := p_entity p; eb_type := p_type p; eb_num := zlen (p_cells p);
                 eb_data := rows e t (p_cells p) |}
              :: element_blocks (e + zlen (p_cells p)) (t + zlen (p_points p)) r
  end.

Definition total {A} (f : part -> list A) (ps : list part) : Z := zlen (flat_map f ps).

Definition built_nodes (ps : list part) : Nodes :=
  match ps with
  | [] => n_default
  | _ => {| n_num_blocks := zlen ps; n_num_nodes := total p_points ps; n_min := 1; n_max := total p_points ps;
            n_blocks := node_blocks 1 ps |}
  end.

Definition built_elements (ps : list part) : Elements :=
  match ps with
  | [] => e_default
  | _ => {| e_num_blocks := zlen ps; e_num_elements := total p_cells ps; e_min := 1; e_max := total p_cells ps;
            e_blocks := element_blocks 1 1 ps |}
  end.

(** What goes with the mesh. *)
Record rest := { with_entities : Entities; with_groups : list PhysicalGroup;
  with_node_data : list Data; with_element_data : list Data; with_element_node_data : list Data;
  with_curves : list Curve; with_patches : list Patch }.

Definition nothing : rest := {| with_entities := ents_default; with_groups := []; with_node_data := [];
  with_element_data := []; with_element_node_data := []; with_curves := []; with_patches := [] |}.

Definition built (ps : list part) (o : rest) : MshSpec :=
  {| mesh_format := mf_default; nodes := built_nodes ps; elements := built_elements ps;
     entities := with_entities o; physical_groups := with_groups o;
     node_data := with_node_data o; element_data := with_element_data o;
     element_node_data := with_element_node_data o;
     ns_version := str "1.0"; curves := with_curves o; patches := with_patches o |}.

(** Gmsh's types with the right number of points per cell, the points of the
    part only, and all of them. *)
Record proper (p : part) : Prop := {
  pr_entity : int_ok (p_entity p);
  pr_dim : gmsh_dim (p_type p) <> None;
  pr_type : exists n, gmsh_nodes (p_type p) = Some n /\ Forall (fun k => zlen k = n) (p_cells p);
  pr_points : p_points p <> [];
  pr_cells : p_cells p <> [];
  pr_inside : Forall (Forall (fun i => 0 <= i < zlen (p_points p))) (p_cells p);
  pr_used : forall i, 0 <= i < zlen (p_points p) -> exists k, In k (p_cells p) /\ In i k }.

(** Parts next to each other are on different entities. *)
Definition propers (ps : list part) : Prop :=
  Forall proper ps /\ neighbours_differ (fun p => (p_dim p, p_entity p)) ps.

(** All the numbers of the cells. *)
Definition numbers (p : part) : list Z := rows 0 0 (p_cells p).

(** Tags are ints, and memory is no issue. *)
Record roomy (c : cfg) (ps : list part) : Prop := {
  rm_points : total p_points ps <= INT_MAX;
  rm_numbers : total numbers ps <= INT_MAX;
  rm_mem : 128 * (total p_points ps + total numbers ps + 1) <= mem c }.

(** All coordinates. *)
Definition coordinates (ps : list part) : list dbl := flat_map (fun p => flat_map xyz (p_points p)) ps.

(** The rest has to be consistent by itself. *)
Record rest_ok (c : cfg) (a : bool) (o : rest) : Prop := {
  ro_entities : entities_ok c a (with_entities o);
  ro_groups : groups_ok c (with_groups o);
  ro_node_data : Forall (data_ok c a false) (with_node_data o);
  ro_element_data : Forall (data_ok c a false) (with_element_data o);
  ro_element_node_data : Forall (data_ok c a true) (with_element_node_data o);
  ro_curves : nanospline c = true -> Forall (curve_ok c a) (with_curves o) /\ fits c sz_Curve (zlen (with_curves o));
  ro_patches : nanospline c = true -> Forall (patch_ok c a) (with_patches o) /\ fits c sz_Patch (zlen (with_patches o)) }.

(** Everything compared is still the same after being written. *)
Record all_stay (c : cfg) (a : bool) (r : dbl -> dbl) (ps : list part) (o : rest) : Prop := {
  as_coordinates : Forall (stays r a) (coordinates ps);
  as_data : Forall (data_survives a r) (with_node_data o ++ with_element_data o ++ with_element_node_data o);
  as_curves : nanospline c = true -> Forall (fun k => Forall (stays r a) (cv_data k)) (with_curves o) }.
