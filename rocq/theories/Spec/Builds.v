(** Comparing builds and machines. *)

From Verif Require Export Model.Cxx.

(** Compared with [c], in [c'] asserts may be compiled out and larger
    allocations may succeed; the extension is the same. *)
Definition eases (c c' : cfg) : Prop :=
  (ndebug c = true -> ndebug c' = true) /\ nanospline c' = nanospline c /\ mem c <= mem c'.
