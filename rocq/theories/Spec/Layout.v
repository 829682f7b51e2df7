(** The sections of a written file. *)

From Verif Require Export Spec.Ranges Model.MshSpec.

Definition nl : bytes := [x0a].

(** $X and $EndX lines around a body. *)
Definition opening (name : bytes) : bytes := str "$" ++ name ++ nl.
Definition frame (name body : bytes) : bytes := opening name ++ body ++ str "$End" ++ name ++ nl.

Definition some {A} (l : list A) : bool := match l with [] => false | _ => true end.
Definition when {A} (b : bool) (l : list A) : list A := if b then l else [].

Definition has_entities (s : MshSpec) : bool :=
  (some (points (entities s)) || some (curves_e (entities s)) || some (surfaces_e (entities s))
   || some (volumes_e (entities s)))%bool.

(** The names of the sections, in order.  2.2 has no entities. *)
Definition section_names (c : cfg) (s : MshSpec) : list bytes :=
  [str "MeshFormat"] ++
  when (some (physical_groups s)) [str "PhysicalNames"] ++
  when (has_entities s && negb (bytes_eqb (version (mesh_format s)) (str "2.2"))) [str "Entities"] ++
  when (0 <? n_num_nodes (nodes s)) [str "Nodes"] ++
  when (0 <? e_num_elements (elements s)) [str "Elements"] ++
  map (fun _ => str "NodeData") (node_data s) ++
  map (fun _ => str "ElementData") (element_data s) ++
  map (fun _ => str "ElementNodeData") (element_node_data s) ++
  when (nanospline c)
    ([str "NanoSplineFormat"] ++ when (some (curves s)) [str "Curves"] ++ when (some (patches s)) [str "Patches"]).

(** What the bodies are functions of. *)
Record bodies := {
  b_format : MeshFormat -> bytes;
  b_groups : list PhysicalGroup -> bytes;
  b_entities : bool -> Entities -> bytes;
  b_nodes : bytes -> bool -> Nodes -> bytes;
  b_elements : bytes -> bool -> Elements -> bytes;
  b_data : bool -> bool -> Data -> bytes;
  b_nanospline : bytes -> bytes;
  b_curves : bool -> list Curve -> bytes;
  b_patches : bool -> list Patch -> bytes }.

(** [per_node]: of $ElementNodeData. *)
Definition section_bodies (B : bodies) (c : cfg) (s : MshSpec) : list bytes :=
  let v := version (mesh_format s) in
  let ascii := file_type (mesh_format s) =? 0 in
  let binary_data := 0 <? file_type (mesh_format s) in
  [b_format B (mesh_format s)] ++
  when (some (physical_groups s)) [b_groups B (physical_groups s)] ++
  when (has_entities s && negb (bytes_eqb v (str "2.2"))) [b_entities B ascii (entities s)] ++
  when (0 <? n_num_nodes (nodes s)) [b_nodes B v ascii (nodes s)] ++
  when (0 <? e_num_elements (elements s)) [b_elements B v ascii (elements s)] ++
  map (b_data B binary_data false) (node_data s) ++
  map (b_data B binary_data false) (element_data s) ++
  map (b_data B binary_data true) (element_node_data s) ++
  when (nanospline c)
    ([b_nanospline B (ns_version s)] ++ when (some (curves s)) [b_curves B ascii (curves s)] ++
     when (some (patches s)) [b_patches B ascii (patches s)]).

Definition frames (names bs : list bytes) : bytes :=
  List.concat (map (fun p => frame (fst p) (snd p)) (combine names bs)).

(** Cut to the header and physical groups. *)
Definition stripped (s : MshSpec) : MshSpec :=
  {| mesh_format := mesh_format s;
     nodes := {| n_num_blocks := 0; n_num_nodes := 0; n_min := 0; n_max := 0; n_blocks := [] |};
     elements := {| e_num_blocks := 0; e_num_elements := 0; e_min := 0; e_max := 0; e_blocks := [] |};
     entities := {| points := []; curves_e := []; surfaces_e := []; volumes_e := [] |};
     physical_groups := physical_groups s; node_data := []; element_data := [];
     element_node_data := []; ns_version := []; curves := []; patches := [] |}.
