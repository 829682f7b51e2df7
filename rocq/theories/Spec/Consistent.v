(** Structural consistency of a 4.1 MshSpec: what a caller has to respect for a
    spec to mean something, plus "the vectors fit in memory". *)

From Verif Require Export Spec.Ranges Spec.Gmsh.

(** Doubles per node of a block. *)
Definition node_width (b : NodeBlock) : Z := if nb_parametric b =? 1 then 3 + nb_dim b else 3.

(** The low 32 bits of [t] as a signed number, seen as size_t. *)
Definition tag32 (t : Z) : Z :=
  let low := t mod 2 ^ 32 in if low <? 2 ^ 31 then low else low + (2 ^ 64 - 2 ^ 32).

(** A non-empty word without whitespace. *)
Definition word (t : bytes) : Prop := t <> [] /\ Forall (fun b => is_ws b = false) t.

Section Consistent.
Variables (c : cfg) (ascii : bool).

(** Text files hold finite doubles only. *)
Definition dbl_ok (x : dbl) : Prop := size_ok x /\ (ascii = true -> finite x).

Record node_block_ok (b : NodeBlock) : Prop := {
  nbo_dim : int_ok (nb_dim b);
  nbo_tag : int_ok (nb_tag b);
  nbo_par : int_ok (nb_parametric b);
  (* the ASCII loader asserts this *)
  nbo_par3 : ascii = true -> ndebug c = false -> 0 <= nb_parametric b <= 3;
  nbo_num : nb_num b = zlen (nb_tags b);
  nbo_tags : Forall size_ok (nb_tags b);
  nbo_width : 0 <= node_width b <= INT_MAX;
  nbo_data : zlen (nb_data b) = nb_num b * node_width b;
  nbo_vals : Forall dbl_ok (nb_data b);
  nbo_mem1 : fits c sz_size (zlen (nb_tags b));
  nbo_mem2 : fits c sz_double (zlen (nb_data b)) }.

Record nodes_ok (n : Nodes) : Prop := {
  no_num : n_num_blocks n = zlen (n_blocks n);
  no_min : size_ok (n_min n);
  no_max : size_ok (n_max n);
  no_mem : fits c sz_NodeBlock (zlen (n_blocks n));
  no_blocks : Forall node_block_ok (n_blocks n) }.

Record element_block_ok (b : ElementBlock) : Prop := {
  ebo_dim : int_ok (eb_dim b);
  ebo_tag : int_ok (eb_tag b);
  ebo_num : size_ok (eb_num b);
  ebo_data : exists n, gmsh_nodes (eb_type b) = Some n /\ zlen (eb_data b) = eb_num b * (n + 1);
  ebo_vals : Forall size_ok (eb_data b);
  ebo_mem : fits c sz_size (zlen (eb_data b)) }.

Record elements_ok (e : Elements) : Prop := {
  eo_num : e_num_blocks e = zlen (e_blocks e);
  eo_min : size_ok (e_min e);
  eo_max : size_ok (e_max e);
  eo_mem : fits c sz_ElementBlock (zlen (e_blocks e));
  eo_blocks : Forall element_block_ok (e_blocks e) }.

Definition ints_ok (l : list Z) : Prop := Forall int_ok l /\ fits c sz_int (zlen l).

Record point_ok (p : PointEntity) : Prop := {
  po_tag : int_ok (pe_tag p);
  po_xyz : dbl_ok (pe_x p) /\ dbl_ok (pe_y p) /\ dbl_ok (pe_z p);
  po_phys : ints_ok (pe_phys p) }.

Record entity_ok (e : Entity) : Prop := {
  ento_tag : int_ok (en_tag e);
  ento_min : dbl_ok (en_min_x e) /\ dbl_ok (en_min_y e) /\ dbl_ok (en_min_z e);
  ento_max : dbl_ok (en_max_x e) /\ dbl_ok (en_max_y e) /\ dbl_ok (en_max_z e);
  ento_phys : ints_ok (en_phys e);
  ento_bnd : ints_ok (en_bnd e) }.

Record entities_ok (en : Entities) : Prop := {
  eno_points : Forall point_ok (points en) /\ fits c sz_PointEntity (zlen (points en));
  eno_curves : Forall entity_ok (curves_e en) /\ fits c sz_Entity (zlen (curves_e en));
  eno_surfaces : Forall entity_ok (surfaces_e en) /\ fits c sz_Entity (zlen (surfaces_e en));
  eno_volumes : Forall entity_ok (volumes_e en) /\ fits c sz_Entity (zlen (volumes_e en)) }.

Record groups_ok (gs : list PhysicalGroup) : Prop := {
  go_all : Forall (fun g => int_ok (pg_dim g) /\ int_ok (pg_tag g)) gs;
  go_num : zlen gs <= INT_MAX;
  go_mem : fits c sz_PhysicalGroup (zlen gs) }.

(** [per_node]: an $ElementNodeData section; [k]: values per entry. *)
Record entry_ok (per_node : bool) (k : Z) (e : DataEntry) : Prop := {
  do_tag : size_ok (de_tag e);
  do_npe : if per_node then 0 <= de_npe e <= INT_MAX else de_npe e = 0;
  do_len : zlen (de_data e) = if per_node then k * de_npe e else k;
  do_vals : Forall dbl_ok (de_data e);
  do_mem : fits c sz_double (zlen (de_data e)) }.

(** Real tags are text in every encoding. *)
Record data_ok (per_node : bool) (d : Data) : Prop := {
  do_strings : fits c sz_string (zlen (string_tags (d_header d)));
  do_reals : Forall (fun x => size_ok x /\ finite x) (real_tags (d_header d));
  do_reals_mem : fits c sz_double (zlen (real_tags (d_header d)));
  do_ints : ints_ok (int_tags (d_header d));
  do_entries : exists i0 k l, int_tags (d_header d) = i0 :: k :: zlen (d_entries d) :: l /\
                 Forall (entry_ok per_node k) (d_entries d);
  do_entries_mem : fits c sz_DataEntry (zlen (d_entries d)) }.

(** Coordinates per control point: x y z and the weight of a rational curve. *)
Definition cp_dim (weights : Z) : Z := if 0 <? weights then 4 else 3.

Record curve_ok (k : Curve) : Prop := {
  co_fields : size_ok (cv_tag k) /\ size_ok (cv_type k) /\ size_ok (cv_degree k) /\
              size_ok (cv_ncp k) /\ size_ok (cv_nknots k) /\ size_ok (cv_weights k);
  co_len : zlen (cv_data k) = cv_ncp k * cp_dim (cv_weights k) + cv_nknots k;
  co_vals : Forall dbl_ok (cv_data k);
  co_mem : fits c sz_double (zlen (cv_data k)) }.

Record patch_ok (k : Patch) : Prop := {
  pao_fields : size_ok (pt_tag k) /\ size_ok (pt_type k) /\ size_ok (pt_degu k) /\
              size_ok (pt_degv k) /\ size_ok (pt_ncp k) /\ size_ok (pt_nu k) /\
              size_ok (pt_nv k) /\ size_ok (pt_weights k);
  pao_len : zlen (pt_data k) = pt_ncp k * cp_dim (pt_weights k) + pt_nu k + pt_nv k;
  pao_vals : Forall dbl_ok (pt_data k);
  pao_mem : fits c sz_double (zlen (pt_data k)) }.

(** The nanospline part. *)
Record splines_ok (s : MshSpec) : Prop := {
  so_version : word (ns_version s);
  so_curves : Forall curve_ok (curves s) /\ fits c sz_Curve (zlen (curves s));
  so_patches : Forall patch_ok (patches s) /\ fits c sz_Patch (zlen (patches s)) }.

(** A section that is not written (count 0) is not constrained. *)
Record parts_ok (s : MshSpec) : Prop := {
  pko_groups : groups_ok (physical_groups s);
  pko_num_nodes : size_ok (n_num_nodes (nodes s));
  pko_nodes : n_num_nodes (nodes s) <> 0 -> nodes_ok (nodes s);
  pko_num_elements : size_ok (e_num_elements (elements s));
  pko_elements : e_num_elements (elements s) <> 0 -> elements_ok (elements s);
  pko_node_data : Forall (data_ok false) (node_data s);
  pko_element_data : Forall (data_ok false) (element_data s);
  pko_element_node_data : Forall (data_ok true) (element_node_data s) }.

End Consistent.

(** The whole spec, as 4.1 ASCII or binary. *)
Record consistent41 (c : cfg) (ascii : bool) (s : MshSpec) : Prop := {
  ok41_version : version (mesh_format s) = str "4.1";
  ok41_type : file_type (mesh_format s) = if ascii then 0 else 1;
  ok41_size : data_size (mesh_format s) = 8;
  ok41_parts : parts_ok c ascii s;
  ok41_entities : entities_ok c ascii (entities s);
  ok41_splines : nanospline c = true -> splines_ok c ascii s }.

(** ** What a reader gets back, [r] being what happens to doubles written as text *)

Section Loaded.
Variables (ascii : bool) (r : dbl -> dbl).

(** Doubles stored in the file's own encoding. *)
Definition via (x : dbl) : dbl := if ascii then r x else x.

Definition node_block_via (b : NodeBlock) : NodeBlock :=
  {| nb_dim := nb_dim b; nb_tag := nb_tag b; nb_parametric := nb_parametric b;
     nb_num := nb_num b; nb_tags := nb_tags b; nb_data := map via (nb_data b) |}.

Definition nodes_via (n : Nodes) : Nodes :=
  if n_num_nodes n =? 0 then n_default else
  {| n_num_blocks := n_num_blocks n; n_num_nodes := n_num_nodes n;
     n_min := n_min n; n_max := n_max n; n_blocks := map node_block_via (n_blocks n) |}.

Definition elements_via (e : Elements) : Elements :=
  if e_num_elements e =? 0 then e_default else e.

Definition point_via (p : PointEntity) : PointEntity :=
  {| pe_tag := pe_tag p; pe_x := via (pe_x p); pe_y := via (pe_y p); pe_z := via (pe_z p);
     pe_phys := pe_phys p |}.

Definition entity_via (e : Entity) : Entity :=
  {| en_tag := en_tag e;
     en_min_x := via (en_min_x e); en_min_y := via (en_min_y e); en_min_z := via (en_min_z e);
     en_max_x := via (en_max_x e); en_max_y := via (en_max_y e); en_max_z := via (en_max_z e);
     en_phys := en_phys e; en_bnd := en_bnd e |}.

Definition entities_via (en : Entities) : Entities :=
  {| points := map point_via (points en); curves_e := map entity_via (curves_e en);
     surfaces_e := map entity_via (surfaces_e en); volumes_e := map entity_via (volumes_e en) |}.

(** Binary files hold the low 32 bits of a data tag, which are read back as a
    signed number. *)
Definition entry_via (e : DataEntry) : DataEntry :=
  {| de_tag := if ascii then de_tag e else tag32 (de_tag e); de_npe := de_npe e; de_data := map via (de_data e) |}.

Definition data_via (d : Data) : Data :=
  {| d_header := {| string_tags := string_tags (d_header d);
                    real_tags := map r (real_tags (d_header d));
                    int_tags := int_tags (d_header d) |};
     d_entries := map entry_via (d_entries d) |}.

Definition curve_via (k : Curve) : Curve :=
  {| cv_tag := cv_tag k; cv_type := cv_type k; cv_degree := cv_degree k; cv_ncp := cv_ncp k;
     cv_nknots := cv_nknots k; cv_weights := cv_weights k; cv_data := map via (cv_data k) |}.

Definition patch_via (k : Patch) : Patch :=
  {| pt_tag := pt_tag k; pt_type := pt_type k; pt_degu := pt_degu k; pt_degv := pt_degv k;
     pt_ncp := pt_ncp k; pt_nu := pt_nu k; pt_nv := pt_nv k; pt_weights := pt_weights k;
     pt_data := map via (pt_data k) |}.

(** [ext]: whether the nanospline extension is compiled in. *)
Definition via41 (ext : bool) (s : MshSpec) : MshSpec :=
  {| mesh_format := mesh_format s;
     nodes := nodes_via (nodes s);
     elements := elements_via (elements s);
     entities := entities_via (entities s);
     physical_groups := physical_groups s;
     node_data := map data_via (node_data s);
     element_data := map data_via (element_data s);
     element_node_data := map data_via (element_node_data s);
     ns_version := if ext then ns_version s else str "1.0";
     curves := if ext then map curve_via (curves s) else [];
     patches := if ext then map patch_via (patches s) else [] |}.
End Loaded.
