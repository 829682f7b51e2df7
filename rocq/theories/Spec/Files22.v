(** Files read as version 2.2. *)

From Verif Require Export Model.LoadMsh Spec.Steps Spec.Records.

(** The section loop ends normally with [raw], the spec handed to the
    post-processing step. *)
Definition ends_with (c : cfg) (b : bytes) (raw : MshSpec) : Prop :=
  exists s, reached c b (Main raw s) /\ eofb s = true.

(** Every mesh section met is read as version 2.2. *)
Definition sections_22 (c : cfg) (b : bytes) : Prop :=
  forall name spec s, meets c b name spec s ->
    name = str "$Nodes" \/ name = str "$Elements" -> version (mesh_format spec) = str "2.2".

(** A 2.2 file: such sections, and version 2.2 at the end. *)
Definition file_22 (c : cfg) (b : bytes) (raw : MshSpec) : Prop :=
  ends_with c b raw /\ sections_22 c b /\ version (mesh_format raw) = str "2.2".

(** Counts and sizes of a loaded 2.2 mesh. *)
Record consistent_22 (s : MshSpec) : Prop := {
  c22_node_num : n_num_blocks (nodes s) = zlen (n_blocks (nodes s));
  c22_nodes : Forall node_block_22 (n_blocks (nodes s));
  c22_num_nodes : n_num_nodes (nodes s) = to_size (zlen (mesh_nodes (nodes s)));
  c22_element_num : e_num_blocks (elements s) = zlen (e_blocks (elements s));
  c22_elements : Forall element_block_22 (e_blocks (elements s)) }.

(** The recorded range is that of the node tags; 0, 0 before any $Nodes
    section, and SIZE_MAX, 0 if all sections were empty. *)
Definition tag_bounds (n : Nodes) : Prop :=
  (n_blocks n = [] /\ n_min n = 0 /\ n_max n = 0) \/
  (n_blocks n <> [] /\ least SIZE_MAX (map n_tag (mesh_nodes n)) (n_min n) /\
                       greatest 0 (map n_tag (mesh_nodes n)) (n_max n)).
