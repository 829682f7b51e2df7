(** What validate_spec can find in a mesh that was loaded from a file. *)

From Verif Require Export Spec.Valid Spec.Mesh Spec.Steps Spec.Files22 Spec.Loaded.

(** The recorded ranges are not empty, and hold every tag. *)
Record in_range (s : MshSpec) : Prop := {
  ir_node_bounds : n_min (nodes s) <= n_max (nodes s);
  ir_element_bounds : e_min (elements s) <= e_max (elements s);
  ir_nodes : Forall (fun n => node_range s (n_tag n)) (mesh_nodes (nodes s));
  ir_elements : Forall (fun e => element_range s (el_tag e) /\ Forall (node_range s) (el_nodes e))
                       (mesh_elements (elements s)) }.

(** The block has elements, and as many as it declares: the number of tags is
    below 2^64. *)
Definition honest (b : ElementBlock) : Prop :=
  0 < eb_num b /\ forall n, gmsh_nodes (eb_type b) = Some n -> eb_num b * (n + 1) < 2 ^ 64.

(** Parametric or not; Gmsh writes 0 or 1. *)
Definition flagged (b : NodeBlock) : Prop := nb_parametric b <= 1.

(** load_msh meets a section of this name. *)
Definition has_section (c : cfg) (b : bytes) (name : string) : Prop :=
  exists spec s, meets c b (str name) spec s.

(** All $Elements sections are text, or all are binary. *)
Definition elements_as (ascii : bool) (c : cfg) (b : bytes) : Prop :=
  forall spec s, meets c b (str "$Elements") spec s -> (file_type (mesh_format spec) =? 0) = ascii.

(** A section of this name is there to be filled, or there is none. *)
Definition filled {A} (c : cfg) (b : bytes) (name : string) (l : list A) : Prop :=
  has_section c b name -> l <> [].

(** The complaints about tags. *)
Definition about_tags : list string :=
  ["Min node tag > max node tag."; "Min element tag > max element tag.";
   "Node tag < min node tag."; "Node tag > max node tag.";
   "Element tag < min element tag."; "Element tag > max element tag.";
   "Node tag in element < min node tag."; "Node tag in element > max node tag."]%string.
