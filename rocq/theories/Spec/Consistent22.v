(** Specs that can be saved as version 2.2, and what comes back. *)

From Verif Require Export Spec.Mesh.

Section Consistent22.
Variables (c : cfg) (ascii : bool).

(** Three coordinates per node at least; 2.2 files keep the first three. *)
Record node_block_saves (b : NodeBlock) : Prop := {
  nbs_num : nb_num b = zlen (nb_tags b);
  nbs_tags : Forall size_ok (nb_tags b);
  nbs_width : 3 <= node_width b <= INT_MAX;
  nbs_data : zlen (nb_data b) = nb_num b * node_width b;
  nbs_vals : Forall (dbl_ok ascii) (nb_data b);
  nbs_mem : fits c sz_double (zlen (nb_data b)) }.

(** Text files are read with int element and node tags; binary blocks are
    counted with an int. *)
Record element_block_saves (b : ElementBlock) : Prop := {
  ebs_tag : int_ok (eb_tag b);
  ebs_num : size_ok (eb_num b);
  ebs_num32 : ascii = false -> eb_num b <= INT_MAX;
  ebs_data : exists n, gmsh_nodes (eb_type b) = Some n /\ zlen (eb_data b) = eb_num b * (n + 1) /\
               fits c sz_int n;
  ebs_vals : Forall size_ok (eb_data b);
  ebs_vals32 : ascii = true -> Forall (fun x => x <= INT_MAX) (eb_data b);
  ebs_mem : fits c sz_size (zlen (eb_data b)) }.

Record nodes_save (n : Nodes) : Prop := {
  ns_num : n_num_blocks n = zlen (n_blocks n);
  ns_blocks : Forall node_block_saves (n_blocks n);
  (* the loader's one block *)
  ns_mem : fits c sz_NodeBlock 1;
  ns_data : fits c sz_double (3 * n_num_nodes n) }.

Record elements_save (e : Elements) : Prop := {
  es_num : e_num_blocks e = zlen (e_blocks e);
  es_blocks : Forall element_block_saves (e_blocks e);
  (* the loader starts with one block per element *)
  es_mem : fits c sz_ElementBlock (e_num_elements e);
  (* the last block of a binary file holds an element *)
  es_last : ascii = false -> forall bs b, e_blocks e = bs ++ [b] -> 0 < eb_num b }.

(** Binary files hold the low 32 bits of tags. *)
Definition tag_22 (t : Z) : Z := if ascii then t else tag32 t.

(** The whole spec: the counts are right, every node tag used by an element
    lies between two node tags, and the range of node tags can be allocated. *)
Record consistent22 (s : MshSpec) : Prop := {
  ok22_version : version (mesh_format s) = str "2.2";
  ok22_type : file_type (mesh_format s) = if ascii then 0 else 1;
  ok22_size : int_ok (data_size (mesh_format s));
  ok22_groups : groups_ok c (physical_groups s);
  ok22_num_nodes : n_num_nodes (nodes s) = zlen (mesh_nodes (nodes s));
  ok22_nodes : n_num_nodes (nodes s) <> 0 -> nodes_save (nodes s);
  ok22_num_elements : e_num_elements (elements s) = zlen (mesh_elements (elements s));
  ok22_elements : e_num_elements (elements s) <> 0 -> elements_save (elements s);
  ok22_refs : forall e t, In e (mesh_elements (elements s)) -> In t (el_nodes e) ->
    exists n1 n2, In n1 (mesh_nodes (nodes s)) /\ In n2 (mesh_nodes (nodes s)) /\
      tag_22 (n_tag n1) <= tag_22 t <= tag_22 (n_tag n2);
  ok22_range : forall n1 n2, In n1 (mesh_nodes (nodes s)) -> In n2 (mesh_nodes (nodes s)) ->
    fits c sz_size (tag_22 (n_tag n2) - tag_22 (n_tag n1) + 1);
  ok22_mem : fits c sz_size 1 /\ fits c sz_int 1;
  ok22_node_data : Forall (data_ok c ascii false) (node_data s);
  ok22_element_data : Forall (data_ok c ascii false) (element_data s);
  ok22_element_node_data : Forall (data_ok c ascii true) (element_node_data s);
  ok22_splines : nanospline c = true -> splines_ok c ascii s }.

(** ** What comes back, [r] being what happens to doubles written as text *)

Variable r : dbl -> dbl.

Definition node_via22 (n : node) : node :=
  {| n_tag := tag_22 (n_tag n);
     n_x := via ascii r (n_x n); n_y := via ascii r (n_y n); n_z := via ascii r (n_z n) |}.

(** The dimension is that of the type. *)
Definition type_dim (t : Z) : Z := match gmsh_dim t with Some d => d | None => 0 end.

Definition element_via22 (e : element) : element :=
  {| el_dim := type_dim (el_type e); el_ent := el_ent e; el_type := el_type e;
     el_tag := tag32 (el_tag e); el_nodes := map tag32 (el_nodes e) |}.

Definition nodes_22 (s : MshSpec) : list node := map node_via22 (mesh_nodes (nodes s)).
Definition elements_22 (s : MshSpec) : list element := map element_via22 (mesh_elements (elements s)).

(** [s'] is [s] after a trip through a 2.2 file: the nodes and elements in
    order, cut into blocks anew, and no entities. *)
Record kept22 (s s' : MshSpec) : Prop := {
  k22_format : mesh_format s' = mesh_format s;
  k22_groups : physical_groups s' = physical_groups s;
  k22_nodes : mesh_nodes (nodes s') = nodes_22 s;
  k22_num_nodes : n_num_nodes (nodes s') = n_num_nodes (nodes s);
  k22_elements : mesh_elements (elements s') = elements_22 s;
  k22_num_elements : e_num_elements (elements s') = e_num_elements (elements s);
  k22_entities : entities s' = {| points := []; curves_e := []; surfaces_e := []; volumes_e := [] |};
  k22_data : node_data s' = map (data_via ascii r) (node_data s) /\
             element_data s' = map (data_via ascii r) (element_data s) /\
             element_node_data s' = map (data_via ascii r) (element_node_data s);
  k22_splines : (ns_version s', curves s', patches s') =
    if nanospline c
    then (ns_version s, map (curve_via ascii r) (curves s), map (patch_via ascii r) (patches s))
    else (str "1.0", [], []);
  (* node blocks: runs of nodes with the same last referencing entity *)
  k22_node_num : n_num_blocks (nodes s') = zlen (n_blocks (nodes s'));
  k22_node_blocks : Forall node_block_22 (n_blocks (nodes s'));
  k22_node_full : Forall (fun b => nb_tags b <> []) (n_blocks (nodes s'));
  k22_node_runs : neighbours_differ node_key (n_blocks (nodes s'));
  k22_class : forall b t, In b (n_blocks (nodes s')) -> In t (nb_tags b) ->
                classified (elements_22 s) t (node_key b);
  (* element blocks: runs of elements of one entity and type *)
  k22_element_num : e_num_blocks (elements s') = zlen (e_blocks (elements s'));
  k22_element_blocks : Forall element_block_22 (e_blocks (elements s'));
  k22_element_full : Forall (fun b => 0 < eb_num b) (e_blocks (elements s'));
  k22_element_runs : neighbours_differ element_key (e_blocks (elements s'));
  (* tag ranges *)
  k22_min : nodes_22 s <> [] ->
    (exists n, In n (nodes_22 s) /\ n_tag n = n_min (nodes s')) /\
    (exists n, In n (nodes_22 s) /\ n_tag n = n_max (nodes s')) /\
    forall n, In n (nodes_22 s) -> n_min (nodes s') <= n_tag n <= n_max (nodes s');
  k22_element_min : elements_22 s <> [] -> Forall (fun e => 0 <= el_tag e <= INT_MAX) (elements_22 s) ->
    (exists e, In e (elements_22 s) /\ el_tag e = e_min (elements s')) /\
    (exists e, In e (elements_22 s) /\ el_tag e = e_max (elements s')) /\
    forall e, In e (elements_22 s) -> e_min (elements s') <= el_tag e <= e_max (elements s');
  k22_no_nodes : nodes_22 s = [] -> nodes s' = n_default;
  k22_no_elements : elements_22 s = [] -> elements s' = e_default }.
End Consistent22.

(** The same spec, to be written in another format. *)
Definition as_type (ascii : bool) (s : MshSpec) : MshSpec :=
  set_format {| version := version (mesh_format s); file_type := if ascii then 0 else 1;
                data_size := data_size (mesh_format s) |} s.
Definition as_version (v : bytes) (s : MshSpec) : MshSpec :=
  set_format {| version := v; file_type := file_type (mesh_format s);
                data_size := data_size (mesh_format s) |} s.

(** Only the coordinates of nodes change. *)
Definition node_round (ascii : bool) (r : dbl -> dbl) (n : node) : node :=
  {| n_tag := n_tag n; n_x := via ascii r (n_x n); n_y := via ascii r (n_y n); n_z := via ascii r (n_z n) |}.
Definition with_type_dim (e : element) : element :=
  {| el_dim := type_dim (el_type e); el_ent := el_ent e; el_type := el_type e;
     el_tag := el_tag e; el_nodes := el_nodes e |}.

Definition to41 (a : bool) (s : MshSpec) : MshSpec := as_version (str "4.1") (as_type a s).

(** The numbers stored for an element. *)
Definition element_words (e : element) : list Z := el_tag e :: el_nodes e.

(** Memory for the blocks and their data. *)
Record room41 (c : cfg) (s : MshSpec) : Prop := {
  rm_nodes : fits c sz_NodeBlock (zlen (mesh_nodes (nodes s)));
  rm_elements : fits c sz_size (zlen (flat_map element_words (mesh_elements (elements s)))) }.

Definition small_tags (s : MshSpec) : Prop :=
  Forall (fun n => 0 <= n_tag n < 2 ^ 31) (mesh_nodes (nodes s)) /\
  Forall (fun e => 0 <= el_tag e < 2 ^ 31 /\ Forall (fun t => 0 <= t < 2 ^ 31) (el_nodes e)) (mesh_elements (elements s)).

(** Every double rounded, except the real tags of data sections. *)
Section Round.
Variable r : dbl -> dbl.

Definition round_nodes (n : Nodes) : Nodes :=
  {| n_num_blocks := n_num_blocks n; n_num_nodes := n_num_nodes n; n_min := n_min n; n_max := n_max n;
     n_blocks := map (node_block_via true r) (n_blocks n) |}.
Definition round_data (d : Data) : Data :=
  {| d_header := d_header d;
     d_entries := map (fun e => {| de_tag := de_tag e; de_npe := de_npe e; de_data := map r (de_data e) |}) (d_entries d) |}.
Definition round_spec (s : MshSpec) : MshSpec :=
  {| mesh_format := mesh_format s;
     nodes := round_nodes (nodes s);
     elements := elements s;
     entities := entities_via true r (entities s);
     physical_groups := physical_groups s;
     node_data := map round_data (node_data s);
     element_data := map round_data (element_data s);
     element_node_data := map round_data (element_node_data s);
     ns_version := ns_version s;
     curves := map (curve_via true r) (curves s);
     patches := map (patch_via true r) (patches s) |}.
End Round.

Definition small_data (s : MshSpec) : Prop :=
  forall d e, In d (node_data s ++ element_data s ++ element_node_data s) -> In e (d_entries d) ->
    0 <= de_tag e < 2 ^ 31.

(** The doubles written as text. *)
Definition all_data (s : MshSpec) : list Data := node_data s ++ element_data s ++ element_node_data s.
Definition text_doubles (ascii : bool) (s : MshSpec) : list dbl :=
  flat_map (fun d => real_tags (d_header d)) (all_data s) ++
  if ascii then
    flat_map nb_data (n_blocks (nodes s)) ++
    flat_map (fun p => [pe_x p; pe_y p; pe_z p]) (points (entities s)) ++
    flat_map (fun e => [en_min_x e; en_min_y e; en_min_z e; en_max_x e; en_max_y e; en_max_z e])
      (curves_e (entities s) ++ surfaces_e (entities s) ++ volumes_e (entities s)) ++
    flat_map (fun d => flat_map de_data (d_entries d)) (all_data s) ++
    flat_map cv_data (curves s) ++ flat_map pt_data (patches s)
  else [].

(** Room for all elements in one block. *)
Definition one_block (c : cfg) (s : MshSpec) : Prop :=
  fits c sz_size (zlen (flat_map element_words (mesh_elements (elements s)))).
