(** What >> does with a number in any text. *)

From Verif Require Export Model.IStream Spec.Told.

(** [w] is the beginning of a numeral. *)
Definition opens (P : bytes -> Prop) (w : bytes) : Prop := exists x, P (w ++ x).
(** [w] is the longest beginning of [b] that is the beginning of a numeral. *)
Definition takes (P : bytes -> Prop) (b w r : bytes) : Prop := b = w ++ r /\ opens P w /\ longest (opens P) w r.

(** Value and failure. *)
Inductive int_read (w : bytes) : Z -> bool -> Prop :=
| int_read_ok z : integer w z -> - 2 ^ 31 <= z < 2 ^ 31 -> int_read w z false
| int_read_above z : integer w z -> 2 ^ 31 <= z -> int_read w (2 ^ 31 - 1) true
| int_read_below z : integer w z -> z < - 2 ^ 31 -> int_read w (- 2 ^ 31) true
| int_read_none : ~ is_integer w -> int_read w 0 true.

Inductive size_read (w : bytes) : Z -> bool -> Prop :=
| size_read_ok z : integer w z -> Z.abs z < 2 ^ 64 -> size_read w (z mod 2 ^ 64) false
| size_read_out z : integer w z -> 2 ^ 64 <= Z.abs z -> size_read w (2 ^ 64 - 1) true
| size_read_none : ~ is_integer w -> size_read w 0 true.

(** Half-way between the largest double and 2^1024. *)
Definition dbl_limit : Q := inject_Z ((2 ^ 54 - 1) * 2 ^ 970).

Inductive real_read (w : bytes) : dbl -> bool -> Prop :=
| real_read_ok minus q x : real w minus q -> (Qabs q < dbl_limit)%Q -> closest_double q x -> (2 ^ 63 <=? x) = minus ->
    real_read w x false
| real_read_out minus q : real w minus q -> (dbl_limit <= Qabs q)%Q ->
    real_read w (if minus : bool then 2 ^ 63 + dbl_max else dbl_max) true
| real_read_none : ~ is_real w -> real_read w 0 true.

(** A stream at the end of its text, or before [r]. *)
Definition at_rest (r : bytes) (failed : bool) : istream :=
  {| rest := r; eofb := match r with [] => true | _ => false end; failb := failed |}.
