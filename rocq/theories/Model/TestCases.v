(** tests/test_io.cpp:206-816: the test cases that make a spec and run
    save_and_load on it, each for the leaf SECTION setting version [v] and file
    type [ft].  "Load" reads the four files of data/, which are in
    Tests/Samples.v.  reserve() and std::move have no effect here. *)

From Verif Require Export Model.TestIo.

(** 1.0, 2.0 and 3.0; 0.0 is 0. *)
Definition d_1 : dbl := 4607182418800017408.
Definition d_2 : dbl := 4611686018427387904.
Definition d_3 : dbl := 4613937818241073152.

(** validate_spec and save_and_load, as at the end of each test case. *)
Definition finish (c : cfg) (v : bytes) (ft : Z) (s : MshSpec) : outcome bool :=
  obind (validate_spec s) (fun _ => save_and_load c v ft s).

(** The element tests also call validate_spec when only the nodes are there
    (test_io.cpp:274, 321, 373, 456). *)
Definition finish_mesh (c : cfg) (v : bytes) (ft : Z) (s : MshSpec) : outcome bool :=
  obind (validate_spec (set_elements e_default s)) (fun _ => finish c v ft s).

Definition only_mesh (n : Nodes) (e : Elements) : MshSpec := set_elements e (set_nodes n spec_default).

(** Empty: 244-250 *)
Definition test_empty (c : cfg) (v : bytes) (ft : Z) : outcome bool := save_and_load c v ft spec_default.

(** Point element: 252-293 *)
Definition point_spec : MshSpec := only_mesh
  {| n_num_blocks := 1; n_num_nodes := 1; n_min := 1; n_max := 1;
     n_blocks := [ {| nb_dim := 0; nb_tag := 1; nb_parametric := 0; nb_num := 1; nb_tags := [1]; nb_data := [0; 0; 0] |} ] |}
  {| e_num_blocks := 1; e_num_elements := 1; e_min := 1; e_max := 1;
     e_blocks := [ {| eb_dim := 0; eb_tag := 1; eb_type := 15; eb_num := 1; eb_data := [1; 1] |} ] |}.
Definition test_point c v ft := finish_mesh c v ft point_spec.

(** Line element: 295-341 *)
Definition line_spec : MshSpec := only_mesh
  {| n_num_blocks := 1; n_num_nodes := 2; n_min := 1; n_max := 2;
     n_blocks := [ {| nb_dim := 1; nb_tag := 1; nb_parametric := 0; nb_num := 2; nb_tags := [1; 2];
                      nb_data := [0; 0; 0; d_1; 0; 0] |} ] |}
  {| e_num_blocks := 1; e_num_elements := 1; e_min := 1; e_max := 1;
     e_blocks := [ {| eb_dim := 1; eb_tag := 1; eb_type := 1; eb_num := 1; eb_data := [1; 1; 2] |} ] |}.
Definition test_line c v ft := finish_mesh c v ft line_spec.

(** triangle element: 343-398 *)
Definition triangle_spec : MshSpec := only_mesh
  {| n_num_blocks := 1; n_num_nodes := 3; n_min := 1; n_max := 3;
     n_blocks := [ {| nb_dim := 2; nb_tag := 1; nb_parametric := 0; nb_num := 3; nb_tags := [1; 2; 3];
                      nb_data := [0; 0; 0; d_1; 0; 0; d_1; d_1; 0] |} ] |}
  {| e_num_blocks := 1; e_num_elements := 2; e_min := 1; e_max := 2;
     e_blocks := [ {| eb_dim := 2; eb_tag := 1; eb_type := 2; eb_num := 2; eb_data := [1; 1; 2; 3; 2; 1; 2; 3] |} ] |}.
Definition test_triangle c v ft := finish_mesh c v ft triangle_spec.

(** mixed element: 400-496 *)
Definition mixed_spec : MshSpec := only_mesh
  {| n_num_blocks := 2; n_num_nodes := 8; n_min := 1; n_max := 8;
     n_blocks := [ {| nb_dim := 2; nb_tag := 1; nb_parametric := 0; nb_num := 4; nb_tags := [1; 2; 3; 4];
                      nb_data := [0; 0; 0; d_1; 0; 0; d_1; d_1; 0; 0; d_1; 0] |};
                   {| nb_dim := 1; nb_tag := 1; nb_parametric := 0; nb_num := 4; nb_tags := [5; 6; 7; 8];
                      nb_data := [0; 0; 0; d_1; 0; 0; d_1; d_1; 0; 0; d_1; 0] |} ] |}
  {| e_num_blocks := 2; e_num_elements := 5; e_min := 1; e_max := 5;
     e_blocks := [ {| eb_dim := 2; eb_tag := 1; eb_type := 3; eb_num := 1; eb_data := [1; 1; 2; 3; 4] |};
                   {| eb_dim := 1; eb_tag := 1; eb_type := 1; eb_num := 4;
                      eb_data := [2; 5; 6; 3; 6; 7; 4; 7; 8; 5; 8; 5] |} ] |}.
Definition test_mixed c v ft := finish_mesh c v ft mixed_spec.

(** The loop over the values, [tag] counting up: 543-550, 562-569, 599-607.
    [npe] is 0 but in the last one, where each value is there three times. *)
Fixpoint data_entries (npe : Z) (copies : nat) (tag : Z) (values : list dbl) : list DataEntry :=
  match values with
  | [] => []
  | x :: r => {| de_tag := tag; de_npe := npe; de_data := repeat x copies |} :: data_entries npe copies (to_size (tag + 1)) r
  end.

(** add_node_data, add_element_data and add_element_node_data: 535-552,
    554-572, 591-610, [more] being the integers after the number of values. *)
Definition data_attr (npe : Z) (copies : nat) (tag : Z) (more : list Z) (name : bytes) (values : list dbl) : Data :=
  {| d_header := {| string_tags := [name]; real_tags := [0]; int_tags := [0; 1; to_int (zlen values)] ++ more |};
     d_entries := data_entries npe copies tag values |}.

Definition add_node_data := data_attr 0 1 9 [0; 3].
Definition add_element_data := data_attr 0 1 10 [0; 10].
Definition add_element_node_data := data_attr 3 3 10 [0; 10].

Definition only_data (n e en : list Data) : MshSpec :=
  {| mesh_format := {| version := version mf_default; file_type := 1; data_size := data_size mf_default |};
     nodes := n_default; elements := e_default; entities := ents_default; physical_groups := [];
     node_data := n; element_data := e; element_node_data := en; ns_version := str "1.0"; curves := []; patches := [] |}.

(** node data: 498-526 *)
Definition node_attr : Data :=
  {| d_header := {| string_tags := [str "test"]; real_tags := [0]; int_tags := [0; 1; 2; 0] |};
     d_entries := [ {| de_tag := 1; de_npe := 0; de_data := [d_1] |}; {| de_tag := 2; de_npe := 0; de_data := [d_2] |} ] |}.
Definition test_node_data c v ft := finish c v ft (only_data [node_attr] [] []).

(** element data: 528-582 *)
Definition test_element_data c v ft :=
  finish c v ft (only_data [add_node_data (str "tv index") [0; d_1; d_2; d_3]] [add_element_data (str "t index") [d_1]] []).

(** element node data: 584-617 *)
Definition test_element_node_data c v ft := finish c v ft (only_data [] [] [add_element_node_data (str "c index") [d_1]]).

(** physical group: 619-697 *)
Definition group_surface : Entity :=
  {| en_tag := 1; en_min_x := 0; en_min_y := 0; en_min_z := 0; en_max_x := d_1; en_max_y := d_1; en_max_z := 0;
     en_phys := [1]; en_bnd := [] |}.
Definition group_spec : MshSpec :=
  {| mesh_format := mf_default;
     nodes := {| n_num_blocks := 1; n_num_nodes := 3; n_min := 1; n_max := 3;
       n_blocks := [ {| nb_dim := 2; nb_tag := 1; nb_parametric := 0; nb_num := 3; nb_tags := [1; 2; 3];
                        nb_data := [0; 0; 0; d_1; 0; 0; d_1; d_1; 0] |} ] |};
     elements := {| e_num_blocks := 1; e_num_elements := 1; e_min := 1; e_max := 1;
       e_blocks := [ {| eb_dim := 2; eb_tag := 1; eb_type := 2; eb_num := 1; eb_data := [1; 1; 2; 3] |} ] |};
     entities := {| points := []; curves_e := []; surfaces_e := [group_surface]; volumes_e := [] |};
     physical_groups := [ {| pg_dim := 2; pg_tag := 1; pg_name := str "my_physical_group" |} ];
     node_data := []; element_data := []; element_node_data := []; ns_version := str "1.0"; curves := []; patches := [] |}.
Definition test_group c v ft := finish c v ft group_spec.

(** NanoSpline extension: 698-816, in builds with the extension *)
Definition spline_curves : list Curve :=
  [ {| cv_tag := 1; cv_type := 1; cv_degree := 3; cv_ncp := 4; cv_nknots := 0; cv_weights := 0;
       cv_data := [0; 0; 0; d_1; 0; 0; 0; d_1; 0; d_1; d_1; 0] |};
    {| cv_tag := 2; cv_type := 2; cv_degree := 3; cv_ncp := 4; cv_nknots := 0; cv_weights := 1;
       cv_data := [0; 0; 0; d_1; d_1; 0; 0; d_1; 0; d_1; 0; d_1; d_1; d_1; 0; d_1] |} ].
Definition spline_patches : list Patch :=
  [ {| pt_tag := 1; pt_type := 2; pt_degu := 3; pt_degv := 3; pt_ncp := 16; pt_nu := 0; pt_nv := 0; pt_weights := 1;
       pt_data := flat_map (fun y => flat_map (fun x => [x; y; 0; d_1]) [0; d_1; d_2; d_3]) [0; d_1; d_2; d_3] |} ].
Definition spline_spec : MshSpec :=
  {| mesh_format := mf_default; nodes := n_default; elements := e_default; entities := ents_default; physical_groups := [];
     node_data := []; element_data := []; element_node_data := [];
     ns_version := str "1.0"; curves := spline_curves; patches := spline_patches |}.
Definition test_splines c v ft := finish c v ft spline_spec.

(** Load: 206-242.  Its four SECTIONs are on one level with those of
    save_and_load, and Catch2 enters one section of a level per run: a file is
    saved again in its own version and file type, and the SECTIONs of
    save_and_load run with an empty spec ([test_empty]). *)
Definition test_load (c : cfg) (file : bytes) : outcome bool :=
  obind (load_msh c file) (fun s =>
  obind (validate_spec s) (fun _ =>
  REQUIRE (n_num_nodes (nodes s) =? 6) (
  REQUIRE (e_num_elements (elements s) =? 2) (
  save_and_load c (version (mesh_format s)) (file_type (mesh_format s)) s)))).
