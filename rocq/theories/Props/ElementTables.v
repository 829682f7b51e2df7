(** C31: the element tables. *)

From Verif Require Import Model.Elem Spec.Gmsh Proofs.ElemP Proofs.Final.

Theorem C31_tables : forall t,
  nodes_per_element t = match gmsh_nodes t with Some n => Ok n | None => Throw (UnsupportedFeature (str "Unsupported element type: " ++ show_Z t)) end /\
  get_element_dim t = match gmsh_dim t with Some d => Ok d | None => Throw (UnsupportedFeature (str "Unsupported element type: " ++ show_Z t)) end.
Proof. exact tables. Qed.
Print Assumptions C31_tables.

Example C31_types : gmsh_nodes 4 = Some 4 /\ gmsh_dim 4 = Some 3 /\ gmsh_nodes 32 = None /\
  (forall t, 1 <= t <= 31 -> gmsh_nodes t <> None).
Proof.
  repeat split; try reflexivity. intros t H E. destruct t as [|p|p]; try Lia.lia.
  do 5 (try match goal with q : positive |- _ => destruct q end); try discriminate; Lia.lia.
Qed.
