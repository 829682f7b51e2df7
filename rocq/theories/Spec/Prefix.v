(** Where the section loop is on a file [p ++ q] when [q] has not been touched. *)

From Verif Require Import Model.LoadMsh Spec.Steps.

(** The mesh read so far at a loop test. *)
Definition read_at (p : point) : MshSpec := match p with Main s _ => s | Fwd _ _ s _ => s end.

(** Loading [p ++ q] passes [pt] with all of [q], and [u] in front of it, unread. *)
Definition passes (c : cfg) (p q : bytes) (pt : point) (u : bytes) : Prop :=
  reached c (p ++ q) pt /\ stream_of pt = opened (u ++ q).

(** Same nodes, elements, entities, groups and data. *)
Definition same_mesh (a b : MshSpec) : Prop :=
  nodes a = nodes b /\ elements a = elements b /\ entities a = entities b /\ physical_groups a = physical_groups b /\
  node_data a = node_data b /\ element_data a = element_data b /\ element_node_data a = element_node_data b.

(** At no time is the version 2.2. *)
Definition never_22 (c : cfg) (b : bytes) : Prop :=
  forall pt, reached c b pt -> version (mesh_format (read_at pt)) <> str "2.2".

(** [x] holds the first few sections of [s]: one group of sections is there only
    when all those before it are there in full. *)
Record first_part (x s : MshSpec) : Prop := {
  part_groups : physical_groups x = [] \/ physical_groups x = physical_groups s;
  part_entities : entities x = ents_default \/
    entities x = entities s /\ physical_groups x = physical_groups s;
  part_nodes : nodes x = n_default \/ nodes x = nodes s /\ entities x = entities s;
  part_elements : elements x = e_default \/ elements x = elements s /\ nodes x = nodes s;
  part_node_data : exists k, node_data x = firstn k (node_data s) /\ (node_data x = [] \/ elements x = elements s);
  part_element_data : exists k, element_data x = firstn k (element_data s) /\
    (element_data x = [] \/ node_data x = node_data s);
  part_element_node_data : exists k, element_node_data x = firstn k (element_node_data s) /\
    (element_node_data x = [] \/ element_data x = element_data s) }.
