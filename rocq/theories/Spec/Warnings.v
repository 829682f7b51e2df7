(** What load_msh says on std::cerr, told from the loop tests it goes through. *)

From Verif Require Import Model.LoadMsh Spec.Steps Spec.Words.

(** Whether a section of this name is one load_msh knows. *)
Definition known (n : bytes) : bool := existsb (bytes_eqb n) known_sections.

(** The unknown section, if any, whose marker is the next word at loop test [p]. *)
Definition unknown_at (p : point) : list bytes :=
  match p with
  | Main _ s =>
    if eofb s then []
    else match fst (rd_token [] s) with
         | x24 :: n => if known n then [] else [n]
         | _ => []
         end
  | Fwd _ _ _ _ => []
  end.

(** [n] steps from [p] to [q], meeting the unknown sections [l] in this order. *)
Inductive path (c : cfg) : list bytes -> nat -> point -> point -> Prop :=
| path_0 p : path c [] O p p
| path_S n p q r l : step c p q -> path c l n q r -> path c (unknown_at p ++ l) (S n) p r.

(** The line for one unknown section, and for several. *)
Definition warning_line (n : bytes) : bytes :=
  str "Warning: skipping section " ++ [x22; x24] ++ n ++ [x22; x0a].
Definition warning_lines (l : list bytes) : bytes := List.concat (map warning_line l).

(** The unknown sections among those of a file. *)
Definition unknown_of (l : list bytes) : list bytes := filter (fun n => negb (known n)) l.

(** The names, unknown and free of whitespace, stand in a text: each right after a
    dollar sign, in this order, without overlap. *)
Inductive spread : list bytes -> bytes -> Prop :=
| spread_nil b : spread [] b
| spread_cons w n l b : Forall (fun x => is_ws x = false) n -> ~ In n known_sections -> spread l b ->
    spread (n :: l) (w ++ (x24 :: n) ++ b).
