(** Reading from front to back. *)

From Verif Require Import Model.LoadMsh.
From Verif Require Export Spec.Steps Spec.Resave.

(** What is left of the file at one time is the end of what was left at another. *)
Definition later (s s' : istream) : Prop := exists u, rest s = u ++ rest s'.

(** [b] has a header that says version [v]. *)
Definition says_version (v b : bytes) : Prop :=
  exists u w r, Forall (fun x => is_ws x = true) w /\ b = u ++ str "$MeshFormat" ++ w ++ v ++ r.
