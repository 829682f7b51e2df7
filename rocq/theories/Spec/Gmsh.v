(** The element families of the MSH format, from geometry (Gmsh reference
    manual, section "MSH file format"), not from the library's tables. *)

From Coq Require Import ZArith.
Open Scope Z_scope.

Inductive shape := Point | Line | Triangle | Quadrangle | Tetrahedron | Hexahedron | Prism | Pyramid.

(** [Complete p]: all Lagrange nodes of order p; [Edges p]: vertices and edge
    nodes only (serendipity / incomplete elements). *)
Inductive family := Complete (sh : shape) (p : Z) | Edges (sh : shape) (p : Z).

Definition dimension (sh : shape) : Z :=
  match sh with
  | Point => 0 | Line => 1 | Triangle | Quadrangle => 2
  | Tetrahedron | Hexahedron | Prism | Pyramid => 3
  end.

Definition vertices (sh : shape) : Z :=
  match sh with
  | Point => 1 | Line => 2 | Triangle => 3 | Quadrangle => 4
  | Tetrahedron => 4 | Hexahedron => 8 | Prism => 6 | Pyramid => 5
  end.

Definition edges (sh : shape) : Z :=
  match sh with
  | Point => 0 | Line => 1 | Triangle => 3 | Quadrangle => 4
  | Tetrahedron => 6 | Hexahedron => 12 | Prism => 9 | Pyramid => 8
  end.

(** Lattice points of order p. *)
Definition lattice (sh : shape) (p : Z) : Z :=
  match sh with
  | Point => 1
  | Line => p + 1
  | Triangle => (p + 1) * (p + 2) / 2
  | Quadrangle => (p + 1) * (p + 1)
  | Tetrahedron => (p + 1) * (p + 2) * (p + 3) / 6
  | Hexahedron => (p + 1) * (p + 1) * (p + 1)
  | Prism => (p + 1) * (p + 1) * (p + 2) / 2
  | Pyramid => (p + 1) * (p + 2) * (2 * p + 3) / 6
  end.

Definition family_nodes (f : family) : Z :=
  match f with
  | Complete sh p => lattice sh p
  | Edges sh p => vertices sh + edges sh * (p - 1)
  end.

Definition family_dim (f : family) : Z :=
  match f with Complete sh _ => dimension sh | Edges sh _ => dimension sh end.

(** The elm-type numbers of the manual. *)
Definition gmsh_family (t : Z) : option family :=
  match t with
  | 1 => Some (Complete Line 1)
  | 2 => Some (Complete Triangle 1)
  | 3 => Some (Complete Quadrangle 1)
  | 4 => Some (Complete Tetrahedron 1)
  | 5 => Some (Complete Hexahedron 1)
  | 6 => Some (Complete Prism 1)
  | 7 => Some (Complete Pyramid 1)
  | 8 => Some (Complete Line 2)
  | 9 => Some (Complete Triangle 2)
  | 10 => Some (Complete Quadrangle 2)
  | 11 => Some (Complete Tetrahedron 2)
  | 12 => Some (Complete Hexahedron 2)
  | 13 => Some (Complete Prism 2)
  | 14 => Some (Complete Pyramid 2)
  | 15 => Some (Complete Point 1)
  | 16 => Some (Edges Quadrangle 2)
  | 17 => Some (Edges Hexahedron 2)
  | 18 => Some (Edges Prism 2)
  | 19 => Some (Edges Pyramid 2)
  | 20 => Some (Edges Triangle 3)
  | 21 => Some (Complete Triangle 3)
  | 22 => Some (Edges Triangle 4)
  | 23 => Some (Complete Triangle 4)
  | 24 => Some (Edges Triangle 5)
  | 25 => Some (Complete Triangle 5)
  | 26 => Some (Complete Line 3)
  | 27 => Some (Complete Line 4)
  | 28 => Some (Complete Line 5)
  | 29 => Some (Complete Tetrahedron 3)
  | 30 => Some (Complete Tetrahedron 4)
  | 31 => Some (Complete Tetrahedron 5)
  | _ => None
  end.

Definition gmsh_nodes (t : Z) : option Z := option_map family_nodes (gmsh_family t).
Definition gmsh_dim (t : Z) : option Z := option_map family_dim (gmsh_family t).
