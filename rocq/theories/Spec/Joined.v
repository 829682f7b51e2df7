(** Files written one after the other into one stream, or put together with cat. *)

From Verif Require Import Model.LoadMsh Spec.Text41.

(** A list replaced by another one, unless that one is empty. *)
Definition unless_empty {A} (old new : list A) : list A := match new with [] => old | _ => new end.

(** The same for entities, which are empty when there is none of any dimension. *)
Definition over_entities (old new : Entities) : Entities :=
  match new with
  | {| points := []; curves_e := []; surfaces_e := []; volumes_e := [] |} => old
  | e => e
  end.

(** What is left of the mesh [old] when the mesh [new] is read on top of it: each part that
    [new] has replaces the old one, a part it lacks stays, and data is added. *)
Definition over (old new : MshSpec) : MshSpec := {|
  mesh_format := mesh_format new;
  nodes := if n_num_nodes (nodes new) =? 0 then nodes old else nodes new;
  elements := if e_num_elements (elements new) =? 0 then elements old else elements new;
  entities := over_entities (entities old) (entities new);
  physical_groups := unless_empty (physical_groups old) (physical_groups new);
  node_data := node_data old ++ node_data new;
  element_data := element_data old ++ element_data new;
  element_node_data := element_node_data old ++ element_node_data new;
  ns_version := ns_version new;
  curves := unless_empty (curves old) (curves new);
  patches := unless_empty (patches old) (patches new) |}.

(** Hand-written files put together: encoding, sections and bytes of each. *)
Record written := { w_ascii : bool; w_secs : list sec; w_bytes : bytes }.
