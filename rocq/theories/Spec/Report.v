(** What examples/msh_inspect.cpp is meant to print: a report, line by line. *)

From Verif Require Export Spec.Format Spec.Loaded.

Definition lines (l : list bytes) : bytes := flat_map (fun x => x ++ nl) l.

(** Words, each followed by a space. *)
Definition words (l : list bytes) : bytes := flat_map (fun w => w ++ str " ") l.

Definition count_line {A} (label : string) (l : list A) : bytes := str label ++ show_Z (zlen l).

(** A count and, unless it is 0, the tags. *)
Definition tag_lines (label : string) (l : list Z) : list bytes :=
  count_line label l :: match l with [] => [] | _ => [str "    " ++ words (map show_Z l)] end.

(** Three coordinates. *)
Definition xyz (x y z : dbl) : bytes := show_double x ++ str " " ++ show_double y ++ str " " ++ show_double z.

Definition point_lines (p : PointEntity) : list bytes :=
  [str "  entity tag: " ++ show_Z (pe_tag p);
   str "  entity coordinates: " ++ xyz (pe_x p) (pe_y p) (pe_z p)] ++
  tag_lines "  Num physical groups: " (pe_phys p).

Definition entity_lines (boundary : string) (e : Entity) : list bytes :=
  [str "  entity tag: " ++ show_Z (en_tag e);
   str "  bounding box min: " ++ xyz (en_min_x e) (en_min_y e) (en_min_z e);
   str "  bounding box max: " ++ xyz (en_max_x e) (en_max_y e) (en_max_z e)] ++
  tag_lines "  Num physical groups: " (en_phys e) ++
  tag_lines (String.append "  Num boundary " (String.append boundary ": ")) (en_bnd e).

Definition group_lines (g : PhysicalGroup) : list bytes :=
  [str "  group dim: " ++ show_Z (pg_dim g); str "  group tag: " ++ show_Z (pg_tag g);
   str "  group name: " ++ in_quotes (pg_name g)].

(** A numbered row of values. *)
Definition row_line (margin : string) (tag : Z) (values : list bytes) : bytes :=
  str margin ++ show_Z tag ++ str ": " ++ words values.

(** Every node of the block with all its coordinates. *)
Definition node_block_lines (b : NodeBlock) : list bytes :=
  [str "  entity dim: " ++ show_Z (nb_dim b); str "  entity tag: " ++ show_Z (nb_tag b);
   str "  parametric: " ++ show_Z (nb_parametric b); str "  num nodes in block: " ++ show_Z (nb_num b)] ++
  map (fun p => row_line "    " (fst p) (map show_double (snd p)))
      (combine (nb_tags b) (cut (Z.to_nat (node_width b)) (Z.to_nat (nb_num b)) (nb_data b))).

Definition element_block_lines (b : ElementBlock) : list bytes :=
  [str "  entity dim: " ++ show_Z (eb_dim b); str "  entity tag: " ++ show_Z (eb_tag b);
   str "  entity type: " ++ show_Z (eb_type b); str "  num elements in block: " ++ show_Z (eb_num b)] ++
  map (fun e => row_line "    " (el_tag e) (map show_Z (el_nodes e))) (block_elements b).

Definition data_lines (d : Data) : list bytes :=
  [count_line "Num string tags: " (string_tags (d_header d)); words (map in_quotes (string_tags (d_header d)));
   count_line "Num real tags: " (real_tags (d_header d)); words (map show_double (real_tags (d_header d)));
   count_line "Num int tags: " (int_tags (d_header d)); words (map show_Z (int_tags (d_header d)))] ++
  map (fun e => row_line "  " (de_tag e) (map show_double (de_data e))) (d_entries d).

(** A heading unless there is nothing below it. *)
Definition headed (label : string) (l : list Data) : list bytes :=
  match l with [] => [] | _ => str label :: flat_map data_lines l end.

(** $ElementNodeData and splines are not reported. *)
Definition report (s : MshSpec) : bytes := lines (
  [str "sizeof(int): 4"; str "sizeof(size_t) 8"; str "sizeof(double) 8"] ++
  [count_line "Num point entities: " (points (entities s))] ++ flat_map point_lines (points (entities s)) ++
  [count_line "Num curve entities: " (curves_e (entities s))] ++ flat_map (entity_lines "points") (curves_e (entities s)) ++
  [count_line "Num surface entities: " (surfaces_e (entities s))] ++ flat_map (entity_lines "curves") (surfaces_e (entities s)) ++
  [count_line "Num volume entities: " (volumes_e (entities s))] ++ flat_map (entity_lines "surfaces") (volumes_e (entities s)) ++
  [count_line "Num physical groups: " (physical_groups s)] ++ flat_map group_lines (physical_groups s) ++
  [str "Num nodes: " ++ show_Z (n_num_nodes (nodes s)); str "Num node blocks: " ++ show_Z (n_num_blocks (nodes s));
   str "min node tag: " ++ show_Z (n_min (nodes s)); str "max node tag: " ++ show_Z (n_max (nodes s))] ++
  flat_map node_block_lines (n_blocks (nodes s)) ++
  [str "Num elements: " ++ show_Z (e_num_elements (elements s)); str "Num element blocks: " ++ show_Z (e_num_blocks (elements s));
   str "min element tag: " ++ show_Z (e_min (elements s)); str "max element tag: " ++ show_Z (e_max (elements s))] ++
  flat_map element_block_lines (e_blocks (elements s)) ++
  headed "Node data: " (node_data s) ++ headed "Element data: " (element_data s)).

(** The blocks on which the program stays inside its vectors: it takes every
    node to have 3 + parametric numbers. *)
Definition node_block_readable (b : NodeBlock) : Prop :=
  nb_num b = 0 \/
  3 + nb_parametric b < 2 ^ 31 /\ nb_num b * ((3 + nb_parametric b) mod 2 ^ 64) <= zlen (nb_data b).
Definition element_block_readable (b : ElementBlock) : Prop :=
  exists n, gmsh_nodes (eb_type b) = Some n /\ eb_num b * (n + 1) <= zlen (eb_data b).

(** The blocks which it prints as they are. *)
Definition node_block_plain (b : NodeBlock) : Prop :=
  (nb_parametric b = 0 \/ nb_parametric b = 1 /\ nb_dim b = 1) /\
  zlen (nb_data b) = nb_num b * node_width b /\ zlen (nb_data b) < 2 ^ 64.
Definition element_block_plain (b : ElementBlock) : Prop :=
  (exists n, gmsh_nodes (eb_type b) = Some n /\ zlen (eb_data b) = eb_num b * (n + 1)) /\
  zlen (eb_data b) < 2 ^ 64.

(** Integer tags that a double shows in full. *)
Definition tags_plain (d : Data) : Prop := Forall (fun t => -1000000 < t < 1000000) (int_tags (d_header d)).
