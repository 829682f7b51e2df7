(** Specs holding NaN or infinities. *)

From Verif Require Export Spec.Consistent22.

(** Infinities and NaN (exponent field all ones) replaced by zero. *)
Definition fin0 (x : dbl) : dbl := if (x / 2 ^ 52) mod 2 ^ 11 =? 2047 then 0 else x.

(** [s] with the non-finite values among those written as text replaced by
    zero: every double of a text file, the real tags of a binary one. *)
Section FinitePart.
Variable a : bool.

Definition finite_data (d : Data) : Data :=
  {| d_header := {| string_tags := string_tags (d_header d); real_tags := map fin0 (real_tags (d_header d));
                    int_tags := int_tags (d_header d) |};
     d_entries := map (fun e => {| de_tag := de_tag e; de_npe := de_npe e;
                                   de_data := map (via a fin0) (de_data e) |}) (d_entries d) |}.

Definition finite_part (s : MshSpec) : MshSpec :=
  {| mesh_format := mesh_format s;
     nodes := round_nodes (via a fin0) (nodes s);
     elements := elements s;
     entities := entities_via a fin0 (entities s);
     physical_groups := physical_groups s;
     node_data := map finite_data (node_data s);
     element_data := map finite_data (element_data s);
     element_node_data := map finite_data (element_node_data s);
     ns_version := ns_version s;
     curves := map (curve_via a fin0) (curves s);
     patches := map (patch_via a fin0) (patches s) |}.
End FinitePart.

(** The doubles of sections other than $Nodes and $Entities written as text. *)
Definition other_doubles (c : cfg) (ascii : bool) (s : MshSpec) : list dbl :=
  flat_map (fun d => real_tags (d_header d)) (all_data s) ++
  if ascii then
    flat_map (fun d => flat_map de_data (d_entries d)) (all_data s) ++
    (if nanospline c then flat_map cv_data (curves s) ++ flat_map pt_data (patches s) else [])
  else [].

(** The doubles a 4.1 file holds as text. *)
Definition written41 (c : cfg) (ascii : bool) (s : MshSpec) : list dbl :=
  (if ascii then
    (if n_num_nodes (nodes s) =? 0 then [] else flat_map nb_data (n_blocks (nodes s))) ++
    flat_map (fun p => [pe_x p; pe_y p; pe_z p]) (points (entities s)) ++
    flat_map (fun e => [en_min_x e; en_min_y e; en_min_z e; en_max_x e; en_max_y e; en_max_z e])
      (curves_e (entities s) ++ surfaces_e (entities s) ++ volumes_e (entities s))
  else []) ++ other_doubles c ascii s.

(** The doubles a 2.2 file holds as text: three coordinates per node. *)
Definition written22 (c : cfg) (ascii : bool) (s : MshSpec) : list dbl :=
  (if ascii then
    (if n_num_nodes (nodes s) =? 0 then []
     else flat_map (fun n => [n_x n; n_y n; n_z n]) (mesh_nodes (nodes s)))
  else []) ++ other_doubles c ascii s.
