(** 2.2 files with the same contents. *)

From Verif Require Import Spec.Any22.

(** $Elements sections that are not empty. *)
Definition element_sections (ps : list part) : list (list el_rec) :=
  flat_map (fun p => match p with ElementsPart (r :: l) => [r :: l] | _ => [] end) ps.

(** Sections the loader knows. *)
Definition known (ps : list sec) : list sec := filter (fun p => match p with SOther _ => false | _ => true end) ps.

(** The same nodes, the same elements and the same other sections, each in the same order; how
    nodes and elements are cut into sections and how sections of different kinds alternate may
    differ. *)
Record same_contents (qs qs' : list sec22) : Prop := {
  sc_nodes : all_nodes (parts_of qs) = all_nodes (parts_of qs');
  sc_recs : all_recs (parts_of qs) = all_recs (parts_of qs');
  sc_extras : known (extras_of qs) = known (extras_of qs') }.

(** Some entity of dimension [d] with tag [t] carries physical tag [p]. *)
Definition carried (en : Entities) (d t p : Z) : Prop :=
  (d = 0 /\ exists x, In x (points en) /\ pe_tag x = t /\ In p (pe_phys x)) \/
  (d = 1 /\ exists x, In x (curves_e en) /\ en_tag x = t /\ In p (en_phys x)) \/
  (d = 2 /\ exists x, In x (surfaces_e en) /\ en_tag x = t /\ In p (en_phys x)) \/
  (d = 3 /\ exists x, In x (volumes_e en) /\ en_tag x = t /\ In p (en_phys x)).

(** Equal but for the file type, num_elements and the list of entities. *)
Record same_mesh (s s' : MshSpec) : Prop := {
  sm_nodes : nodes s = nodes s';
  sm_num_blocks : e_num_blocks (elements s) = e_num_blocks (elements s');
  sm_blocks : e_blocks (elements s) = e_blocks (elements s');
  sm_min : e_min (elements s) = e_min (elements s');
  sm_max : e_max (elements s) = e_max (elements s');
  sm_carried : forall d t p, carried (entities s) d t p <-> carried (entities s') d t p;
  sm_groups : physical_groups s = physical_groups s';
  sm_node_data : node_data s = node_data s';
  sm_element_data : element_data s = element_data s';
  sm_element_node_data : element_node_data s = element_node_data s';
  sm_ns_version : ns_version s = ns_version s';
  sm_curves : curves s = curves s';
  sm_patches : patches s = patches s' }.
