(** Data sections as text. *)

From Verif Require Export Spec.Text22 Model.Save.

(** Number of names, quoted names, number of reals, reals, number of integers,
    integers; each word followed by whitespace. *)
Definition header_laid_out (names : list bytes) (reals : list dbl) (ints : list Z) (t : bytes) : Prop :=
  exists ws, Forall2 denotes ws reals /\
    laid_out (show_Z (zlen names) :: map quoted names ++ show_Z (zlen reals) :: ws ++
              show_Z (zlen ints) :: map show_Z ints) t.

Definition data_section (name : bytes) : Prop :=
  name = str "$NodeData" \/ name = str "$ElementData" \/ name = str "$ElementNodeData".
