(** The conditions validate_spec is documented to check. *)

From Verif Require Export Spec.Ranges Spec.Gmsh Spec.Consistent Model.MshSpec.

Definition node_range (s : MshSpec) (t : Z) : Prop := n_min (nodes s) <= t <= n_max (nodes s).
Definition element_range (s : MshSpec) (t : Z) : Prop := e_min (elements s) <= t <= e_max (elements s).

(** As many tags as declared, all within the bounds, and three doubles for
    each, or 3 + dim if parametric (counted modulo 2^64). *)
Record valid_node_block (s : MshSpec) (b : NodeBlock) : Prop := {
  vn_num : nb_num b = zlen (nb_tags b);
  vn_tags : Forall (node_range s) (nb_tags b);
  vn_data : zlen (nb_data b) =
    (zlen (nb_tags b) * (if 0 <? nb_parametric b then 3 + nb_dim b else 3)) mod 2 ^ 64 }.

(** The data are rows of [data.size() / num] numbers: an element tag and
    node tags, within the bounds. *)
Definition valid_element_block (s : MshSpec) (b : ElementBlock) : Prop :=
  exists rows : list (Z * list Z),
    eb_data b = flat_map (fun r => fst r :: snd r) rows /\
    Forall (fun r => zlen (snd r) + 1 = zlen (eb_data b) / eb_num b /\
                     element_range s (fst r) /\ Forall (node_range s) (snd r)) rows.

Record valid_heads (s : MshSpec) : Prop := {
  vh_nodes : n_num_blocks (nodes s) = zlen (n_blocks (nodes s));
  vh_elements : e_num_blocks (elements s) = zlen (e_blocks (elements s));
  vh_node_tags : n_min (nodes s) <= n_max (nodes s);
  vh_element_tags : e_min (elements s) <= e_max (elements s) }.

Record valid (s : MshSpec) : Prop := {
  va_heads : valid_heads s;
  va_nodes : Forall (valid_node_block s) (n_blocks (nodes s));
  va_elements : Forall (valid_element_block s) (e_blocks (elements s)) }.

(** Between 1 and data.size() elements. *)
Definition countable (b : ElementBlock) : Prop := 1 <= eb_num b <= zlen (eb_data b).
(** 3 + dim is an int. *)
Definition addable (b : NodeBlock) : Prop := 0 < nb_parametric b -> nb_dim b <= INT_MAX - 3.

(** num_elements_in_block is a size_t. *)
Definition typed (s : MshSpec) : Prop := Forall (fun b => 0 <= eb_num b) (e_blocks (elements s)).

(** The first thing wrong is the division by zero. *)
Definition divides_by_zero (s : MshSpec) : Prop :=
  valid_heads s /\ Forall (fun b => valid_node_block s b /\ addable b) (n_blocks (nodes s)) /\
  exists l b r, e_blocks (elements s) = l ++ b :: r /\
    Forall (fun b => valid_element_block s b /\ countable b) l /\ ~ countable b.

(** The first thing wrong is the sum 3 + dim. *)
Definition overflows (s : MshSpec) : Prop :=
  valid_heads s /\
  exists l b r, n_blocks (nodes s) = l ++ b :: r /\
    Forall (fun b => valid_node_block s b /\ addable b) l /\
    nb_num b = zlen (nb_tags b) /\ Forall (node_range s) (nb_tags b) /\ ~ addable b.

(** ** What validate_spec does not check

    [room]: of what a vector of 8-byte values can hold at most. *)
Definition room (n : Z) : Prop := n * 8 < 2 ^ 63.

Record unchecked (c : cfg) (s : MshSpec) : Prop := {
  un_nodes : Forall (fun b => (0 < nb_parametric b -> 0 <= nb_dim b <= 3) /\
               room (zlen (nb_tags b)) /\ room (zlen (nb_data b))) (n_blocks (nodes s));
  un_elements : Forall (fun b => room (zlen (eb_data b)) /\
      forall n, gmsh_nodes (eb_type b) = Some n -> eb_num b * (n + 1) <= zlen (eb_data b)) (e_blocks (elements s));
  un_curves : nanospline c = true -> Forall (fun k => 0 <= cv_ncp k /\ 0 <= cv_nknots k /\
      zlen (cv_data k) = cv_ncp k * cp_dim (cv_weights k) + cv_nknots k /\ room (zlen (cv_data k))) (curves s);
  un_patches : nanospline c = true -> Forall (fun k => 0 <= pt_ncp k /\ 0 <= pt_nu k /\ 0 <= pt_nv k /\
      zlen (pt_data k) = pt_ncp k * cp_dim (pt_weights k) + pt_nu k + pt_nv k /\
      room (zlen (pt_data k))) (patches s) }.

(** Gmsh's own requirement on the version and element types. *)
Definition supported (s : MshSpec) : Prop :=
  (version (mesh_format s) = str "4.1" \/ version (mesh_format s) = str "2.2") /\
  Forall (fun b => gmsh_nodes (eb_type b) <> None) (e_blocks (elements s)).
