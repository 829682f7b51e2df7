(** Memory without limit. *)

From Verif Require Import Spec.Any22.

(** The machine [c] with as much memory as there are addresses. *)
Definition boundless (c : cfg) : cfg := {| ndebug := ndebug c; nanospline := nanospline c; mem := PTRDIFF_MAX |}.

(** Memory for forty bytes per byte of a file. *)
Definition ample (c : cfg) (b : bytes) : Prop := 40 * zlen b <= mem c.
