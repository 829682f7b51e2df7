(** README.md:191-205: how to look up the physical groups of an element block.

    The text shows it for surfaces and says "0 for point, 1 for curve..." of the
    other dimensions; this is the same code with the vector of that dimension.
    Dereferencing the end of a vector is [Undef OutOfBounds]. *)

From Verif Require Export Model.MshSpec Model.Cxx.

(** README.md:191-195, 199: the vector of the dimension; none for others. *)
Definition lookup (en : Entities) (dim tag : Z) : option (list Z) :=
  if dim =? 0 then option_map pe_phys (find (fun e => pe_tag e =? tag) (points en))
  else if dim =? 1 then option_map en_phys (find (fun e => en_tag e =? tag) (curves_e en))
  else if dim =? 2 then option_map en_phys (find (fun e => en_tag e =? tag) (surfaces_e en))
  else if dim =? 3 then option_map en_phys (find (fun e => en_tag e =? tag) (volumes_e en))
  else None.

(** README.md:197-205, block by block. *)
Definition groups_of_block (c : cfg) (s : MshSpec) (b : ElementBlock) : outcome (list Z) :=
  match lookup (entities s) (eb_dim b) (eb_tag b) with
  | Some g => Ok g
  | None => if ndebug c then Undef OutOfBounds else Abort
  end.
