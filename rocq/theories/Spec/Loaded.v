(** Sizes and counts of what load_msh returns. *)

From Verif Require Export Spec.Mesh.

(** As many tags as declared and 3, or 3 + dim if parametric, doubles for each,
    counted modulo 2^64. *)
Record node_block_loaded (b : NodeBlock) : Prop := {
  nl_dim : int_ok (nb_dim b);
  nl_tag : int_ok (nb_tag b);
  nl_parametric : int_ok (nb_parametric b);
  nl_num : zlen (nb_tags b) = nb_num b;
  nl_size : size_ok (nb_num b);
  nl_data : zlen (nb_data b) =
              (nb_num b * (if nb_parametric b =? 1 then 3 + nb_dim b else 3)) mod 2 ^ 64;
  nl_tags : Forall size_ok (nb_tags b);
  nl_vals : Forall size_ok (nb_data b);
  (* 3 + dim is an int *)
  nl_sum : nb_parametric b = 1 -> nb_dim b <= INT_MAX - 3 }.

(** A type of the Gmsh table with [n] nodes, [n + 1] numbers per element. *)
Record element_block_loaded (b : ElementBlock) : Prop := {
  el_l_dim : int_ok (eb_dim b);
  el_l_tag : int_ok (eb_tag b);
  el_l_size : size_ok (eb_num b);
  el_l_data : exists n, gmsh_nodes (eb_type b) = Some n /\
                zlen (eb_data b) = (eb_num b * (n + 1)) mod 2 ^ 64;
  el_l_vals : Forall size_ok (eb_data b) }.

(** At least three integer tags: time step, fields, entries; [ElementNodeData]
    entries have fields for each node. *)
Definition data_loaded (element_node : bool) (d : Data) : Prop :=
  exists step fields num more, int_tags (d_header d) = step :: fields :: num :: more /\
    zlen (d_entries d) = num mod 2 ^ 64 /\
    Forall (fun e => zlen (de_data e) =
              (if element_node then fields * de_npe e else fields) mod 2 ^ 64) (d_entries d).

Record loaded (s : MshSpec) : Prop := {
  ld_node_blocks : n_num_blocks (nodes s) = zlen (n_blocks (nodes s));
  ld_node_nums : size_ok (n_num_nodes (nodes s)) /\ size_ok (n_min (nodes s)) /\ size_ok (n_max (nodes s));
  ld_node_all : Forall node_block_loaded (n_blocks (nodes s));
  ld_element_blocks : e_num_blocks (elements s) = zlen (e_blocks (elements s));
  ld_element_nums : size_ok (e_num_elements (elements s)) /\ size_ok (e_min (elements s)) /\ size_ok (e_max (elements s));
  ld_element_all : Forall element_block_loaded (e_blocks (elements s));
  ld_node_data : Forall (data_loaded false) (node_data s);
  ld_element_data : Forall (data_loaded false) (element_data s);
  ld_element_node_data : Forall (data_loaded true) (element_node_data s) }.
