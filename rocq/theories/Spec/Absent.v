(** Byte sequences within files. *)

From Verif Require Import Model.LoadMsh.

Definition occurs (p b : bytes) : Prop := exists u v, b = u ++ p ++ v.
