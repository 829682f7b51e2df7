(** What the project's round-trip tests compare, and the specs they pass on. *)

From Verif Require Export Spec.Consistent22 Spec.Rounding Spec.Valid.

Definition infinite (x : dbl) : Prop := (x / 2 ^ 52) mod 2 ^ 11 = 2047 /\ x mod 2 ^ 52 = 0.

(** Two doubles compare equal: the same number. *)
Definition equal (x y : dbl) : Prop :=
  finite x /\ finite y /\ (dval x == dval y)%Q \/ infinite x /\ x = y.

Definition alike_node_block (b b' : NodeBlock) : Prop :=
  nb_dim b = nb_dim b' /\ nb_tag b = nb_tag b' /\ nb_parametric b = nb_parametric b' /\
  nb_tags b = nb_tags b' /\ Forall2 equal (nb_data b) (nb_data b').
(** [npe]: whether the number of nodes per element counts. *)
Definition alike_entry (npe : bool) (e e' : DataEntry) : Prop :=
  de_tag e = de_tag e' /\ (npe = true -> de_npe e = de_npe e') /\ Forall2 equal (de_data e) (de_data e').
Definition alike_data (npe : bool) (d d' : Data) : Prop :=
  string_tags (d_header d) = string_tags (d_header d') /\
  Forall2 equal (real_tags (d_header d)) (real_tags (d_header d')) /\
  int_tags (d_header d) = int_tags (d_header d') /\
  Forall2 (alike_entry npe) (d_entries d) (d_entries d').
Definition alike_curve (k k' : Curve) : Prop :=
  cv_tag k = cv_tag k' /\ cv_type k = cv_type k' /\ cv_degree k = cv_degree k' /\ cv_ncp k = cv_ncp k' /\
  cv_nknots k = cv_nknots k' /\ cv_weights k = cv_weights k' /\ Forall2 equal (cv_data k) (cv_data k').

Record alike (ext : bool) (s s' : MshSpec) : Prop := {
  al_nodes : n_num_blocks (nodes s) = n_num_blocks (nodes s') /\ n_num_nodes (nodes s) = n_num_nodes (nodes s') /\
    n_min (nodes s) = n_min (nodes s') /\ n_max (nodes s) = n_max (nodes s');
  al_node_blocks : Forall2 alike_node_block (n_blocks (nodes s)) (n_blocks (nodes s'));
  al_elements : elements s = elements s';
  al_node_data : Forall2 (alike_data false) (node_data s) (node_data s');
  al_element_data : Forall2 (alike_data false) (element_data s) (element_data s');
  al_element_node_data : Forall2 (alike_data true) (element_node_data s) (element_node_data s');
  al_curves : ext = true -> Forall2 alike_curve (curves s) (curves s') }.

(** The numbers of blocks are right. *)
Definition counted (s : MshSpec) : Prop :=
  n_num_blocks (nodes s) = zlen (n_blocks (nodes s)) /\ e_num_blocks (elements s) = zlen (e_blocks (elements s)).

(** All the doubles that are compared. *)
Definition data_doubles (d : Data) : list dbl := real_tags (d_header d) ++ flat_map de_data (d_entries d).
Definition compared (ext : bool) (s : MshSpec) : list dbl :=
  flat_map nb_data (n_blocks (nodes s)) ++
  flat_map data_doubles (node_data s ++ element_data s ++ element_node_data s) ++
  (if ext then flat_map cv_data (curves s) else []).

(** ** The specs that come back alike

    [r] is what happens to doubles written as text. *)
Section Survives.
Variables (c : cfg) (ascii : bool) (r : dbl -> dbl).

(** A number that is still the same after being written as text or in binary. *)
Definition stays (text : bool) (x : dbl) : Prop :=
  if text then (dval (r x) == dval x)%Q else finite x \/ infinite x.

(** A tag that fits the four bytes it has in a binary file. *)
Definition short (t : Z) : Prop := ascii = false -> t < 2 ^ 31 \/ 2 ^ 64 - 2 ^ 31 <= t.

Record data_survives (d : Data) : Prop := {
  sv_real : Forall (stays true) (real_tags (d_header d));
  sv_entries : Forall (fun e => short (de_tag e) /\ Forall (stays ascii) (de_data e)) (d_entries d) }.

(** A section with a count of 0 is not written and comes back as the default. *)
Record survives (s : MshSpec) : Prop := {
  sv_nodes : Forall (fun b => Forall (stays ascii) (nb_data b)) (n_blocks (nodes s));
  sv_no_nodes : n_num_nodes (nodes s) = 0 -> nodes s = n_default;
  sv_no_elements : e_num_elements (elements s) = 0 -> elements s = e_default;
  sv_data : Forall data_survives (node_data s ++ element_data s ++ element_node_data s);
  sv_curves : nanospline c = true -> Forall (fun k => Forall (stays ascii) (cv_data k)) (curves s) }.

(** In version 2.2 the blocks are those the loader makes: runs of nodes with
    the same last entity, runs of elements of one entity and type with the
    dimension of the type, and the tag ranges are tight. *)
Record regular (s : MshSpec) : Prop := {
  rg_nodes : Forall (fun b => nb_parametric b = 0 /\ nb_tags b <> [] /\ Forall short (nb_tags b)) (n_blocks (nodes s));
  rg_node_runs : neighbours_differ node_key (n_blocks (nodes s));
  rg_class : forall b t, In b (n_blocks (nodes s)) -> In t (nb_tags b) ->
    classified (mesh_elements (elements s)) t (node_key b);
  rg_node_range : n_num_nodes (nodes s) <> 0 ->
    In (n_min (nodes s)) (map n_tag (mesh_nodes (nodes s))) /\ In (n_max (nodes s)) (map n_tag (mesh_nodes (nodes s)));
  rg_elements : Forall (fun b => gmsh_dim (eb_type b) = Some (eb_dim b) /\ Forall short (eb_data b)) (e_blocks (elements s));
  rg_element_runs : neighbours_differ element_key (e_blocks (elements s));
  rg_element_range : e_num_elements (elements s) <> 0 ->
    In (e_min (elements s)) (map el_tag (mesh_elements (elements s))) /\
    In (e_max (elements s)) (map el_tag (mesh_elements (elements s))) }.
End Survives.

Definition to22 (a : bool) (s : MshSpec) : MshSpec := as_version (str "2.2") (as_type a s).
