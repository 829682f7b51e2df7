(** What a saved file says about the spec it was saved from. *)

From Verif Require Export Spec.Consistent22.

(** Nothing in [s] that is left out of a file: sections of count 0 are empty,
    there are no splines if they are not compiled in, and tags of data entries
    fit the four bytes of a binary file. *)
Record written_out (c : cfg) (ascii : bool) (s : MshSpec) : Prop := {
  pl_nodes : n_num_nodes (nodes s) = 0 -> nodes s = n_default;
  pl_elements : e_num_elements (elements s) = 0 -> elements s = e_default;
  pl_tags : ascii = false -> small_data s;
  pl_splines : nanospline c = false -> ns_version s = str "1.0" /\ curves s = [] /\ patches s = [] }.

(** The same mesh as far as 2.2 files go; the blocks and entities may differ. *)
Record same22 (c : cfg) (ascii : bool) (r : dbl -> dbl) (s t : MshSpec) : Prop := {
  sm_format : mesh_format s = mesh_format t;
  sm_groups : physical_groups s = physical_groups t;
  sm_nodes : nodes_22 ascii r s = nodes_22 ascii r t;
  sm_elements : elements_22 s = elements_22 t;
  sm_node_data : map (data_via ascii r) (node_data s) = map (data_via ascii r) (node_data t);
  sm_element_data : map (data_via ascii r) (element_data s) = map (data_via ascii r) (element_data t);
  sm_element_node_data :
    map (data_via ascii r) (element_node_data s) = map (data_via ascii r) (element_node_data t);
  sm_splines : nanospline c = true -> ns_version s = ns_version t /\
    map (curve_via ascii r) (curves s) = map (curve_via ascii r) (curves t) /\
    map (patch_via ascii r) (patches s) = map (patch_via ascii r) (patches t) }.
