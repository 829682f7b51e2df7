(** The arrays that load_msh makes for the nodes of 2.2 files. *)

From Verif Require Export Spec.Files22 Spec.Ranges.

(** Numbers from the least to the greatest node tag. *)
Definition tag_span (s : MshSpec) : Z := n_max (nodes s) - n_min (nodes s) + 1.

(** What becomes of a file with nodes, [o] being the outcome. *)
Definition by_span (c : cfg) (raw : MshSpec) (o : outcome MshSpec) : Prop :=
  (tag_span raw = 2 ^ 64 /\ o = Undef OutOfBounds) \/
  (2 ^ 60 <= tag_span raw < 2 ^ 64 /\ o = Throw LengthError) \/
  (0 < tag_span raw < 2 ^ 60 /\ mem c < 8 * tag_span raw /\ o = Throw BadAlloc) \/
  (0 < tag_span raw < 2 ^ 60 /\ 8 * tag_span raw <= mem c /\
    ((references_in_range raw /\ exists s, o = Ok s) \/
     (~ references_in_range raw /\ o = Undef OutOfBounds))).

(** Without nodes: the references that do no harm. *)
Definition harmless (s : MshSpec) : Prop :=
  forall e t, In e (mesh_elements (elements s)) -> In t (el_nodes e) ->
    t = 0 \/ (n_blocks (nodes s) <> [] /\ t = 2 ^ 64 - 1).
