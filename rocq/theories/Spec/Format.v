(** The bytes of a file, following the MSH 4.1 and 2.2 format descriptions (Gmsh
    reference manual, section "MSH file format"). *)

From Verif Require Export Spec.Layout Spec.Consistent22 Model.Dbl.

(** A number of the format: int, size_t or double. *)
Inductive field := Int (z : Z) | Size (z : Z) | Real (x : dbl).

Definition text_of (f : field) : bytes :=
  match f with Int z | Size z => show_Z z | Real x => show_double x end.
Definition raw_of (f : field) : bytes :=
  match f with Int z => le 4 z | Size z | Real z => le 8 z end.

(** Text files: one record per line, numbers separated by one space. *)
Definition text_line (words : list bytes) : bytes :=
  match words with
  | [] => nl
  | w :: l => w ++ flat_map (fun x => str " " ++ x) l ++ nl
  end.

(** A list of records. *)
Definition encode (ascii : bool) (records : list (list field)) : bytes :=
  flat_map (fun r => if ascii then text_line (map text_of r) else flat_map raw_of r) records.

(** A name in quotes, with quotes and backslashes escaped. *)
Definition in_quotes (name : bytes) : bytes :=
  [x22] ++ flat_map (fun b => if Byte.eqb b x22 then [x5c; x22] else if Byte.eqb b x5c then [x5c; x5c] else [b]) name
        ++ [x22].

Definition sizes (l : list Z) : list field := map Size l.

(** ** $MeshFormat: version file-type data-size; the int 1 in binary files *)
Definition format_section (f : MeshFormat) : bytes :=
  text_line [version f; show_Z (file_type f); show_Z (data_size f)] ++
  (if file_type f =? 1 then [x01; x00; x00; x00] else []).

(** ** $PhysicalNames, always text: dimension tag "name" *)
Definition groups_section (l : list PhysicalGroup) : bytes :=
  text_line [show_Z (zlen l)] ++
  flat_map (fun g => text_line [show_Z (pg_dim g); show_Z (pg_tag g); in_quotes (pg_name g)]) l.

(** ** $Entities (4.1) *)
Definition counted (l : list Z) : list field := Size (zlen l) :: map Int l.
Definition point_record (p : PointEntity) : list field :=
  [Int (pe_tag p); Real (pe_x p); Real (pe_y p); Real (pe_z p)] ++ counted (pe_phys p).
Definition entity_record (e : Entity) : list field :=
  [Int (en_tag e); Real (en_min_x e); Real (en_min_y e); Real (en_min_z e);
   Real (en_max_x e); Real (en_max_y e); Real (en_max_z e)] ++ counted (en_phys e) ++ counted (en_bnd e).
Definition entities_records (e : Entities) : list (list field) :=
  sizes [zlen (points e); zlen (curves_e e); zlen (surfaces_e e); zlen (volumes_e e)] ::
  map point_record (points e) ++
  map entity_record (curves_e e ++ surfaces_e e ++ volumes_e e).

(** ** $Nodes *)

(** 4.1: entityDim entityTag parametric numNodes, the tags, the coordinates. *)
Definition node_block_records (b : NodeBlock) : list (list field) :=
  [Int (nb_dim b); Int (nb_tag b); Int (nb_parametric b); Size (nb_num b)] ::
  map (fun t => [Size t]) (nb_tags b) ++
  map (map Real) (cut (Z.to_nat (node_width b)) (Z.to_nat (nb_num b)) (nb_data b)).
Definition nodes_records (n : Nodes) : list (list field) :=
  sizes [n_num_blocks n; n_num_nodes n; n_min n; n_max n] :: flat_map node_block_records (n_blocks n).

(** 2.2: the number of nodes as text; tag x y z. *)
Definition node_record (n : node) : list field := [Int (n_tag n); Real (n_x n); Real (n_y n); Real (n_z n)].

Definition nodes_section (v : bytes) (ascii : bool) (n : Nodes) : bytes :=
  if bytes_eqb v (str "2.2")
  then text_line [show_Z (n_num_nodes n)] ++ encode ascii (map node_record (mesh_nodes n))
  else encode ascii (nodes_records n).

(** ** $Elements *)

(** 4.1: entityDim entityTag elementType numElements; tag and nodes. *)
Definition element_block_records (b : ElementBlock) : list (list field) :=
  [Int (eb_dim b); Int (eb_tag b); Int (eb_type b); Size (eb_num b)] ::
  map (fun e => map Size (element_words e)) (block_elements b).
Definition elements_records (e : Elements) : list (list field) :=
  sizes [e_num_blocks e; e_num_elements e; e_min e; e_max e] :: flat_map element_block_records (e_blocks e).

(** 2.2 text: tag type number-of-tags tags nodes, the only tag being the entity. *)
Definition element_text_record (e : element) : list field :=
  map Int ([el_tag e; el_type e; 1; el_ent e] ++ el_nodes e).
(** 2.2 binary: type number-of-elements number-of-tags, then tag tags nodes. *)
Definition element_raw_records (b : ElementBlock) : list (list field) :=
  map Int [eb_type b; eb_num b; 1] ::
  map (fun e => map Int ([el_tag e; el_ent e] ++ el_nodes e)) (block_elements b).

Definition elements_section (v : bytes) (ascii : bool) (e : Elements) : bytes :=
  if bytes_eqb v (str "2.2")
  then text_line [show_Z (e_num_elements e)] ++
       encode ascii (if ascii then map element_text_record (mesh_elements e)
                     else flat_map element_raw_records (e_blocks e))
  else encode ascii (elements_records e).

(** ** $NodeData, $ElementData, $ElementNodeData: text tags, then the entries *)
Definition tags_section (h : DataHeader) : bytes :=
  text_line [show_Z (zlen (string_tags h))] ++ flat_map (fun t => text_line [in_quotes t]) (string_tags h) ++
  encode true ([[Size (zlen (real_tags h))]] ++ map (fun x => [Real x]) (real_tags h) ++
               [[Size (zlen (int_tags h))]] ++ map (fun x => [Int x]) (int_tags h)).
Definition entry_record (per_node : bool) (e : DataEntry) : list field :=
  Int (de_tag e) :: (if per_node then [Int (de_npe e)] else []) ++ map Real (de_data e).
Definition data_section (binary per_node : bool) (d : Data) : bytes :=
  tags_section (d_header d) ++ encode (negb binary) (map (entry_record per_node) (d_entries d)).

(** ** $Curves, $Patches: a line of text, then control points and knots *)
Definition spline_data (ascii : bool) (ncp weights : Z) (data : list dbl) : bytes :=
  let dim := Z.to_nat (cp_dim weights) in
  encode ascii (map (map Real) (cut dim (Z.to_nat ncp) data) ++
                map (fun x => [Real x]) (skipn (Z.to_nat ncp * dim) data)).
Definition curve_section (ascii : bool) (k : Curve) : bytes :=
  encode true [sizes [cv_tag k; cv_type k; cv_degree k; cv_ncp k; cv_nknots k; cv_weights k]] ++
  spline_data ascii (cv_ncp k) (cv_weights k) (cv_data k).
Definition patch_section (ascii : bool) (k : Patch) : bytes :=
  encode true [sizes [pt_tag k; pt_type k; pt_degu k; pt_degv k; pt_ncp k; pt_nu k; pt_nv k; pt_weights k]] ++
  spline_data ascii (pt_ncp k) (pt_weights k) (pt_data k).

Definition msh : bodies := {|
  b_format := format_section;
  b_groups := groups_section;
  b_entities := fun ascii e => encode ascii (entities_records e);
  b_nodes := nodes_section;
  b_elements := elements_section;
  b_data := data_section;
  b_nanospline := fun v => text_line [v];
  b_curves := fun ascii l => text_line [show_Z (zlen l)] ++ flat_map (curve_section ascii) l;
  b_patches := fun ascii l => text_line [show_Z (zlen l)] ++ flat_map (patch_section ascii) l |}.

(** No empty lines: every node has coordinates and every entry a value. *)
Definition no_empty_lines (s : MshSpec) : Prop :=
  (n_num_nodes (nodes s) <> 0 -> Forall (fun b => 1 <= node_width b) (n_blocks (nodes s))) /\
  Forall (fun d => Forall (fun e => de_data e <> []) (d_entries d)) (node_data s ++ element_data s ++ element_node_data s).
