(** Value ranges and memory limits, shared by the specifications. *)

From Verif Require Export Model.MshSpec.

(** The values of int and size_t; a double is a 64-bit pattern. *)
Definition int_ok (z : Z) : Prop := INT_MIN <= z <= INT_MAX.
Definition size_ok (z : Z) : Prop := 0 <= z < two64.

(** Neither infinite nor NaN: the exponent field is not all ones. *)
Definition finite (x : dbl) : Prop := (x / 2 ^ 52) mod 2 ^ 11 <> 2047.

(** A vector of [n] elements of [sz] bytes can exist and be allocated. *)
Definition fits (c : cfg) (sz n : Z) : Prop := n <= PTRDIFF_MAX / sz /\ n * sz <= mem c.
