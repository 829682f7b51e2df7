(** The mesh held by a spec, independent of how it is cut into blocks. *)

From Verif Require Export Spec.Consistent.

(** A node: its tag and coordinates. *)
Record node := { n_tag : Z; n_x : dbl; n_y : dbl; n_z : dbl }.

(** The nodes of a block with [w] doubles per node. *)
Fixpoint nodes_of (w : nat) (tags : list Z) (data : list dbl) : list node :=
  match tags with
  | [] => []
  | t :: ts => {| n_tag := t; n_x := nth 0 data 0; n_y := nth 1 data 0; n_z := nth 2 data 0 |}
               :: nodes_of w ts (skipn w data)
  end.

Definition block_nodes (b : NodeBlock) : list node :=
  nodes_of (Z.to_nat (node_width b)) (nb_tags b) (nb_data b).
Definition mesh_nodes (n : Nodes) : list node := flat_map block_nodes (n_blocks n).

(** An element: tag, type, entity and node tags. *)
Record element := { el_dim : Z; el_ent : Z; el_type : Z; el_tag : Z; el_nodes : list Z }.

(** Cutting [data] into [num] pieces of length [k]. *)
Fixpoint cut (k num : nat) (data : list Z) : list (list Z) :=
  match num with
  | O => []
  | S m => firstn k data :: cut k m (skipn k data)
  end.

Definition element_of (b : ElementBlock) (r : list Z) : element :=
  {| el_dim := eb_dim b; el_ent := eb_tag b; el_type := eb_type b;
     el_tag := hd 0 r; el_nodes := tl r |}.

Definition block_elements (b : ElementBlock) : list element :=
  match gmsh_nodes (eb_type b) with
  | Some n => map (element_of b) (cut (Z.to_nat (n + 1)) (Z.to_nat (eb_num b)) (eb_data b))
  | None => []
  end.
Definition mesh_elements (e : Elements) : list element := flat_map block_elements (e_blocks e).

(** [dt] is the entity of the last element of [es] having node [t]; (0,0) if
    there is none. *)
Definition classified (es : list element) (t : Z) (dt : Z * Z) : Prop :=
  (exists l e r, es = l ++ e :: r /\ In t (el_nodes e) /\
     (forall e', In e' r -> ~ In t (el_nodes e')) /\ dt = (el_dim e, el_ent e)) \/
  ((forall e, In e es -> ~ In t (el_nodes e)) /\ dt = (0, 0)).

(** Neighbours in a list differ in [key]. *)
Fixpoint neighbours_differ {A K} (key : A -> K) (l : list A) : Prop :=
  match l with
  | x :: (y :: _) as r => key x <> key y /\ neighbours_differ key r
  | _ => True
  end.

(** Three coordinates per node, and as many as declared. *)
Record node_block_22 (b : NodeBlock) : Prop := {
  nb22_par : nb_parametric b = 0;
  nb22_dim : int_ok (nb_dim b);
  nb22_tag : int_ok (nb_tag b);
  nb22_num : nb_num b = zlen (nb_tags b);
  nb22_data : zlen (nb_data b) = 3 * nb_num b;
  nb22_tags : Forall size_ok (nb_tags b);
  nb22_vals : Forall size_ok (nb_data b) }.

(** A block of elements of a known type, as many as declared, with the
    dimension of the type. *)
Record element_block_22 (b : ElementBlock) : Prop := {
  eb22_dim : gmsh_dim (eb_type b) = Some (eb_dim b);
  eb22_tag : int_ok (eb_tag b);
  eb22_num : size_ok (eb_num b);
  eb22_data : exists n, gmsh_nodes (eb_type b) = Some n /\ zlen (eb_data b) = eb_num b * (n + 1);
  eb22_vals : Forall size_ok (eb_data b) }.

Definition total (l : list Z) : Z := fold_right Z.add 0 l.

(** What the post-processing step starts from: vectors of possible sizes. *)
Record raw22 (s : MshSpec) : Prop := {
  raw_nodes : Forall node_block_22 (n_blocks (nodes s));
  raw_nodes_size : Forall (fun b => zlen (nb_data b) < two64) (n_blocks (nodes s));
  raw_min : size_ok (n_min (nodes s));
  raw_max : size_ok (n_max (nodes s));
  raw_elements : Forall element_block_22 (e_blocks (elements s));
  raw_elements_size : Forall (fun b => zlen (eb_data b) < two64) (e_blocks (elements s));
  raw_elements_num : total (map eb_num (e_blocks (elements s))) < two64 }.

Definition node_key (b : NodeBlock) : Z * Z := (nb_dim b, nb_tag b).
Definition element_key (b : ElementBlock) : Z * Z * Z := (eb_dim b, eb_tag b, eb_type b).

(** [s'] is [s] with its nodes and elements cut into blocks anew. *)
Record regrouped (s s' : MshSpec) : Prop := {
  rgd_nodes : mesh_nodes (nodes s') = mesh_nodes (nodes s);
  rgd_node_blocks : Forall node_block_22 (n_blocks (nodes s'));
  rgd_node_full : Forall (fun b => nb_tags b <> []) (n_blocks (nodes s'));
  rgd_node_num : n_num_blocks (nodes s') = zlen (n_blocks (nodes s'));
  rgd_node_runs : neighbours_differ node_key (n_blocks (nodes s'));
  rgd_class : forall b t, In b (n_blocks (nodes s')) -> In t (nb_tags b) ->
                classified (mesh_elements (elements s)) t (node_key b);
  rgd_elements : mesh_elements (elements s') = mesh_elements (elements s);
  rgd_element_blocks : Forall element_block_22 (e_blocks (elements s'));
  rgd_element_full : Forall (fun b => 0 < eb_num b) (e_blocks (elements s)) ->
                     Forall (fun b => 0 < eb_num b) (e_blocks (elements s'));
  rgd_element_num : e_num_blocks (elements s') = zlen (e_blocks (elements s'));
  rgd_element_runs : neighbours_differ element_key (e_blocks (elements s'));
  rgd_rest : exists nbs ebs,
    s' = set_elements {| e_num_blocks := zlen ebs; e_num_elements := e_num_elements (elements s);
                         e_min := e_min (elements s); e_max := e_max (elements s); e_blocks := ebs |}
         (set_nodes {| n_num_blocks := zlen nbs; n_num_nodes := n_num_nodes (nodes s);
                       n_min := n_min (nodes s); n_max := n_max (nodes s); n_blocks := nbs |} s) }.

(** Every node tag used by an element, or by a node, lies in [min,max]. *)
Definition references_in_range (s : MshSpec) : Prop :=
  forall e t, In e (mesh_elements (elements s)) -> In t (el_nodes e) ->
    n_min (nodes s) <= t <= n_max (nodes s).
Definition tags_in_range (s : MshSpec) : Prop :=
  forall n, In n (mesh_nodes (nodes s)) -> n_min (nodes s) <= n_tag n <= n_max (nodes s).
