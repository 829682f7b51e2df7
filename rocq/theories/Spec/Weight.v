(** How much a mesh holds: one for each number, and the length of each name. *)

From Verif Require Import Model.LoadMsh Spec.Steps.

Definition weigh {A} (f : A -> Z) (l : list A) : Z := fold_right (fun x n => f x + n) 0 l.

Definition name_weight (n : bytes) : Z := Z.max 1 (zlen n).
Definition group_weight (g : PhysicalGroup) : Z := 2 + name_weight (pg_name g).
Definition entry_weight (e : DataEntry) : Z := 1 + zlen (de_data e).
Definition data_weight (d : Data) : Z :=
  weigh name_weight (string_tags (d_header d)) + zlen (real_tags (d_header d)) + zlen (int_tags (d_header d)) +
  weigh entry_weight (d_entries d).

(** Groups, node tags, data. *)
Definition common_weight (s : MshSpec) : Z :=
  weigh group_weight (physical_groups s) + weigh (fun b => zlen (nb_tags b)) (n_blocks (nodes s)) +
  (weigh data_weight (node_data s) + weigh data_weight (element_data s) + weigh data_weight (element_node_data s)).

(** Entities, coordinates, elements. *)
Definition mesh_weight (s : MshSpec) : Z :=
  (weigh (fun p => 4 + zlen (pe_phys p)) (points (entities s)) +
   weigh (fun e => 7 + zlen (en_phys e) + zlen (en_bnd e)) (curves_e (entities s)) +
   weigh (fun e => 7 + zlen (en_phys e) + zlen (en_bnd e)) (surfaces_e (entities s)) +
   weigh (fun e => 7 + zlen (en_phys e) + zlen (en_bnd e)) (volumes_e (entities s))) +
  weigh (fun b => 4 + zlen (nb_data b)) (n_blocks (nodes s)) +
  weigh (fun b => 4 + zlen (eb_data b)) (e_blocks (elements s)).

(** Every mesh section met is read as version 4.1, and so is the file. *)
Definition all_41 (c : cfg) (b : bytes) : Prop :=
  (forall name spec s, meets c b name spec s -> name = str "$Nodes" \/ name = str "$Elements" ->
     version (mesh_format spec) = str "4.1") /\
  (forall raw s, reached c b (Main raw s) -> eofb s = true -> version (mesh_format raw) <> str "2.2").
