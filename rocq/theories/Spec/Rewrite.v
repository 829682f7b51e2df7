(** Loading a file and saving it in another format. *)

From Verif Require Import Spec.Consistent22 Spec.Any22.

(** What it takes to write the contents of a 2.2 file as 4.1: finite coordinates in text, element
    numbers that are not negative, other sections that can be written, and memory. *)
Record upgradable (c : cfg) (ascii : bool) (qs : list sec22) : Prop := {
  up_nodes : Forall (fun n => dbl_ok ascii (n_x n) /\ dbl_ok ascii (n_y n) /\ dbl_ok ascii (n_z n)) (all_nodes (parts_of qs));
  up_ids : Forall (fun r => 0 <= er_id r) (all_recs (parts_of qs));
  up_extras : Forall (sec_ok c ascii) (extras_of qs);
  up_node_blocks : fits c sz_NodeBlock (zlen (all_nodes (parts_of qs)));
  up_words : fits c sz_size (zlen (flat_map element_words (map rec_element (all_recs (parts_of qs)))));
  up_entities : fits c sz_Entity (zlen (all_recs (parts_of qs))) }.

(** Nothing is lost in a 4.1 binary file: parts that count nothing are empty, and numbers that
    are text even there, the real tags of data, are not present; data tags, which are 32 bits
    there, are small; no splines the build ignores. *)
Record lossless (c : cfg) (s : MshSpec) : Prop := {
  ll_nodes : n_num_nodes (nodes s) = 0 -> nodes s = n_default;
  ll_elements : e_num_elements (elements s) = 0 -> elements s = e_default;
  ll_reals : Forall (fun d => real_tags (d_header d) = []) (node_data s ++ element_data s ++ element_node_data s);
  ll_tags : Forall (fun d => Forall (fun e => 0 <= de_tag e <= INT_MAX) (d_entries d))
              (node_data s ++ element_data s ++ element_node_data s);
  ll_splines : nanospline c = false -> ns_version s = str "1.0" /\ curves s = [] /\ patches s = [] }.
