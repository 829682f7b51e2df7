(** 4.1 binary files cut off inside $Nodes. *)

From Verif Require Export Spec.Consistent.

(** Little-endian 8-byte values, and what is left of them when only [k] bytes
    arrive in zeroed memory. *)
Definition words8 (l : list Z) : bytes := List.concat (map (le 8) l).
Fixpoint cut_words (k : nat) (l : list Z) : list Z :=
  match l with
  | [] => []
  | x :: l' => x mod 2 ^ (8 * Z.of_nat (Nat.min k 8)) :: cut_words (k - 8) l'
  end.

(** MSH 4.1 $Nodes: numBlocks numNodes minTag maxTag, then the blocks. *)
Definition nodes_head (n : Nodes) : bytes :=
  le 8 (n_num_blocks n) ++ le 8 (n_num_nodes n) ++ le 8 (n_min n) ++ le 8 (n_max n).
(** entityDim entityTag parametric numNodes, the tags; then the coordinates. *)
Definition block_head (b : NodeBlock) : bytes :=
  le 4 (nb_dim b) ++ le 4 (nb_tag b) ++ le 4 (nb_parametric b) ++ le 8 (nb_num b) ++ words8 (nb_tags b).
Definition block_payload (b : NodeBlock) : bytes := block_head b ++ words8 (nb_data b).
Definition nodes_payload (n : Nodes) : bytes :=
  nodes_head n ++ List.concat (map block_payload (n_blocks n)).

(** Where $Nodes is in a file: [pre] before it, [post] after it. *)
Definition nodes_line : bytes := str "$Nodes" ++ [x0a].
Definition end_nodes_line : bytes := str "$EndNodes" ++ [x0a].
Definition nodes_in (s : MshSpec) (pre post b : bytes) : Prop :=
  b = pre ++ nodes_line ++ nodes_payload (nodes s) ++ end_nodes_line ++ post.

(** An empty block. *)
Definition no_block : NodeBlock :=
  {| nb_dim := 0; nb_tag := 0; nb_parametric := 0; nb_num := 0; nb_tags := []; nb_data := [] |}.
Definition with_data (d : list dbl) (b : NodeBlock) : NodeBlock :=
  {| nb_dim := nb_dim b; nb_tag := nb_tag b; nb_parametric := nb_parametric b; nb_num := nb_num b;
     nb_tags := nb_tags b; nb_data := d |}.

(** What precedes $Elements in a file, with other node blocks. *)
Definition up_to_nodes (blocks : list NodeBlock) (s : MshSpec) : MshSpec :=
  {| mesh_format := mesh_format s;
     nodes := {| n_num_blocks := n_num_blocks (nodes s); n_num_nodes := n_num_nodes (nodes s);
                 n_min := n_min (nodes s); n_max := n_max (nodes s); n_blocks := blocks |};
     elements := {| e_num_blocks := 0; e_num_elements := 0; e_min := 0; e_max := 0; e_blocks := [] |};
     entities := entities s; physical_groups := physical_groups s;
     node_data := []; element_data := []; element_node_data := [];
     ns_version := str "1.0"; curves := []; patches := [] |}.
