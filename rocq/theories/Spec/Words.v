(** Free text: words separated by whitespace. *)

From Verif Require Export Spec.Consistent.

Definition blank (w : bytes) : Prop := Forall (fun b => is_ws b = true) w.

(** (whitespace, word) pairs written one after the other. *)
Definition text (l : list (bytes * bytes)) : bytes :=
  List.concat (map (fun p => fst p ++ snd p) l).

(** Every word is preceded by whitespace and satisfies [P]. *)
Definition words_are (P : bytes -> Prop) (l : list (bytes * bytes)) : Prop :=
  Forall (fun p => blank (fst p) /\ fst p <> [] /\ word (snd p) /\ P (snd p)) l.

(** The sections load_msh knows (README.md and MSH format). *)
Definition known_sections : list bytes :=
  map str ["MeshFormat"; "Entities"; "PhysicalNames"; "Nodes"; "Elements"; "NodeData";
           "ElementData"; "ElementNodeData"; "NanoSplineFormat"; "Curves"; "Patches"]%string.

(** Nothing or whitespace. *)
Definition ends_word (r : bytes) : Prop := match r with [] => True | c :: _ => is_ws c = true end.

(** Nothing or a character that is not a digit. *)
Definition ends_number (r : bytes) : Prop := match r with [] => True | c :: _ => digit_of c = None end.

(** A word that is not a section marker. *)
Definition plain (t : bytes) : Prop := match t with c :: _ => c <> x24 | [] => True end.

(** Space, tab, newline or carriage return. *)
Definition gap (b : byte) : Prop := In b [x20; x09; x0a; x0d].
