(** include/mshio/MshSpec.h and MshSpecExt.h.

    int and size_t fields are [Z] (ranges are stated where needed), doubles are
    bit patterns.  CurveEntity, SurfaceEntity and VolumeEntity have the same
    layout (MshSpec.h:82-116) and share one record. *)

From Verif Require Export Model.Cxx Model.Dbl.

(** MshSpec.h:10-15 *)
Record MeshFormat := { version : bytes; file_type : Z; data_size : Z }.

(** MshSpec.h:17-25 *)
Record NodeBlock := {
  nb_dim : Z; nb_tag : Z; nb_parametric : Z; nb_num : Z;
  nb_tags : list Z; nb_data : list dbl }.

(** MshSpec.h:27-34 *)
Record Nodes := {
  n_num_blocks : Z; n_num_nodes : Z; n_min : Z; n_max : Z; n_blocks : list NodeBlock }.

(** MshSpec.h:36-43 *)
Record ElementBlock := {
  eb_dim : Z; eb_tag : Z; eb_type : Z; eb_num : Z; eb_data : list Z }.

(** MshSpec.h:45-52 *)
Record Elements := {
  e_num_blocks : Z; e_num_elements : Z; e_min : Z; e_max : Z; e_blocks : list ElementBlock }.

(** MshSpec.h:54-59 *)
Record DataHeader := {
  string_tags : list bytes; real_tags : list dbl; int_tags : list Z }.

(** MshSpec.h:61-66 *)
Record DataEntry := { de_tag : Z; de_npe : Z; de_data : list dbl }.

(** MshSpec.h:68-72 *)
Record Data := { d_header : DataHeader; d_entries : list DataEntry }.

(** MshSpec.h:74-80 *)
Record PointEntity := {
  pe_tag : Z; pe_x : dbl; pe_y : dbl; pe_z : dbl; pe_phys : list Z }.

(** MshSpec.h:82-116; [en_bnd] is boundary_point/curve/surface_tags. *)
Record Entity := {
  en_tag : Z;
  en_min_x : dbl; en_min_y : dbl; en_min_z : dbl;
  en_max_x : dbl; en_max_y : dbl; en_max_z : dbl;
  en_phys : list Z; en_bnd : list Z }.

(** MshSpec.h:118-128 *)
Record Entities := {
  points : list PointEntity; curves_e : list Entity;
  surfaces_e : list Entity; volumes_e : list Entity }.

(** MshSpec.h:130-135 *)
Record PhysicalGroup := { pg_dim : Z; pg_tag : Z; pg_name : bytes }.

(** MshSpecExt.h:13-22 *)
Record Curve := {
  cv_tag : Z; cv_type : Z; cv_degree : Z; cv_ncp : Z; cv_nknots : Z; cv_weights : Z;
  cv_data : list dbl }.

(** MshSpecExt.h:24-35 *)
Record Patch := {
  pt_tag : Z; pt_type : Z; pt_degu : Z; pt_degv : Z; pt_ncp : Z;
  pt_nu : Z; pt_nv : Z; pt_weights : Z; pt_data : list dbl }.

(** MshSpec.h:137-152; [ns_version] is nanospline_format.version. *)
Record MshSpec := {
  mesh_format : MeshFormat;
  nodes : Nodes;
  elements : Elements;
  entities : Entities;
  physical_groups : list PhysicalGroup;
  node_data : list Data;
  element_data : list Data;
  element_node_data : list Data;
  ns_version : bytes;
  curves : list Curve;
  patches : list Patch }.

(** Default-constructed values. *)
Definition mf_default := {| version := str "4.1"; file_type := 0; data_size := 8 |}.
Definition nb_default :=
  {| nb_dim := 0; nb_tag := 0; nb_parametric := 0; nb_num := 0; nb_tags := []; nb_data := [] |}.
Definition n_default :=
  {| n_num_blocks := 0; n_num_nodes := 0; n_min := 0; n_max := 0; n_blocks := [] |}.
Definition eb_default :=
  {| eb_dim := 0; eb_tag := 0; eb_type := 0; eb_num := 0; eb_data := [] |}.
Definition e_default :=
  {| e_num_blocks := 0; e_num_elements := 0; e_min := 0; e_max := 0; e_blocks := [] |}.
Definition dh_default := {| string_tags := []; real_tags := []; int_tags := [] |}.
Definition de_default := {| de_tag := 0; de_npe := 0; de_data := [] |}.
Definition d_default := {| d_header := dh_default; d_entries := [] |}.
Definition pe_default := {| pe_tag := 0; pe_x := 0; pe_y := 0; pe_z := 0; pe_phys := [] |}.
Definition en_default :=
  {| en_tag := 0; en_min_x := 0; en_min_y := 0; en_min_z := 0;
     en_max_x := 0; en_max_y := 0; en_max_z := 0; en_phys := []; en_bnd := [] |}.
Definition ents_default :=
  {| points := []; curves_e := []; surfaces_e := []; volumes_e := [] |}.
Definition pg_default := {| pg_dim := 0; pg_tag := 0; pg_name := [] |}.
Definition cv_default :=
  {| cv_tag := 0; cv_type := 0; cv_degree := 0; cv_ncp := 0; cv_nknots := 0; cv_weights := 0;
     cv_data := [] |}.
Definition pt_default :=
  {| pt_tag := 0; pt_type := 0; pt_degu := 0; pt_degv := 0; pt_ncp := 0; pt_nu := 0; pt_nv := 0;
     pt_weights := 0; pt_data := [] |}.
Definition spec_default : MshSpec :=
  {| mesh_format := mf_default; nodes := n_default; elements := e_default;
     entities := ents_default; physical_groups := [];
     node_data := []; element_data := []; element_node_data := [];
     ns_version := str "1.0"; curves := []; patches := [] |}.

(** Field updates. *)
Definition set_format x (s : MshSpec) : MshSpec :=
  {| mesh_format := x; nodes := nodes s; elements := elements s; entities := entities s;
     physical_groups := physical_groups s; node_data := node_data s;
     element_data := element_data s; element_node_data := element_node_data s;
     ns_version := ns_version s; curves := curves s; patches := patches s |}.
Definition set_nodes x (s : MshSpec) : MshSpec :=
  {| mesh_format := mesh_format s; nodes := x; elements := elements s; entities := entities s;
     physical_groups := physical_groups s; node_data := node_data s;
     element_data := element_data s; element_node_data := element_node_data s;
     ns_version := ns_version s; curves := curves s; patches := patches s |}.
Definition set_elements x (s : MshSpec) : MshSpec :=
  {| mesh_format := mesh_format s; nodes := nodes s; elements := x; entities := entities s;
     physical_groups := physical_groups s; node_data := node_data s;
     element_data := element_data s; element_node_data := element_node_data s;
     ns_version := ns_version s; curves := curves s; patches := patches s |}.
Definition set_entities x (s : MshSpec) : MshSpec :=
  {| mesh_format := mesh_format s; nodes := nodes s; elements := elements s; entities := x;
     physical_groups := physical_groups s; node_data := node_data s;
     element_data := element_data s; element_node_data := element_node_data s;
     ns_version := ns_version s; curves := curves s; patches := patches s |}.
Definition set_physical_groups x (s : MshSpec) : MshSpec :=
  {| mesh_format := mesh_format s; nodes := nodes s; elements := elements s;
     entities := entities s; physical_groups := x; node_data := node_data s;
     element_data := element_data s; element_node_data := element_node_data s;
     ns_version := ns_version s; curves := curves s; patches := patches s |}.
Definition set_node_data x (s : MshSpec) : MshSpec :=
  {| mesh_format := mesh_format s; nodes := nodes s; elements := elements s;
     entities := entities s; physical_groups := physical_groups s; node_data := x;
     element_data := element_data s; element_node_data := element_node_data s;
     ns_version := ns_version s; curves := curves s; patches := patches s |}.
Definition set_element_data x (s : MshSpec) : MshSpec :=
  {| mesh_format := mesh_format s; nodes := nodes s; elements := elements s;
     entities := entities s; physical_groups := physical_groups s; node_data := node_data s;
     element_data := x; element_node_data := element_node_data s;
     ns_version := ns_version s; curves := curves s; patches := patches s |}.
Definition set_element_node_data x (s : MshSpec) : MshSpec :=
  {| mesh_format := mesh_format s; nodes := nodes s; elements := elements s;
     entities := entities s; physical_groups := physical_groups s; node_data := node_data s;
     element_data := element_data s; element_node_data := x;
     ns_version := ns_version s; curves := curves s; patches := patches s |}.
Definition set_ns_version x (s : MshSpec) : MshSpec :=
  {| mesh_format := mesh_format s; nodes := nodes s; elements := elements s;
     entities := entities s; physical_groups := physical_groups s; node_data := node_data s;
     element_data := element_data s; element_node_data := element_node_data s;
     ns_version := x; curves := curves s; patches := patches s |}.
Definition set_curves x (s : MshSpec) : MshSpec :=
  {| mesh_format := mesh_format s; nodes := nodes s; elements := elements s;
     entities := entities s; physical_groups := physical_groups s; node_data := node_data s;
     element_data := element_data s; element_node_data := element_node_data s;
     ns_version := ns_version s; curves := x; patches := patches s |}.
Definition set_patches x (s : MshSpec) : MshSpec :=
  {| mesh_format := mesh_format s; nodes := nodes s; elements := elements s;
     entities := entities s; physical_groups := physical_groups s; node_data := node_data s;
     element_data := element_data s; element_node_data := element_node_data s;
     ns_version := ns_version s; curves := curves s; patches := x |}.
