(** The physical groups the README's lookup is about. *)

From Verif Require Export Model.Readme Spec.Text22.

(** Distinct first tags of the elements of [recs] of dimension [d] and second tag [t], in order. *)
Definition groups_of (recs : list el_rec) (d t : Z) (g : list Z) : Prop :=
  increasing g /\ forall p, In p g <-> tagged recs d t p.

(** [l] is the first $Elements section with such elements. *)
Definition first_with (ps : list part) (d t : Z) (l : list el_rec) : Prop :=
  exists ps1 ps2, ps = ps1 ++ ElementsPart l :: ps2 /\
    (forall p, ~ tagged (all_recs ps1) d t p) /\ exists p, tagged l d t p.

(** The lookup fails: an assert, or the end of a vector dereferenced. *)
Definition fails (c : cfg) (o : outcome (list Z)) : Prop :=
  o = if ndebug c then Undef OutOfBounds else Abort.
