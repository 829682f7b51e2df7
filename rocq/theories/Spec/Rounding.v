(** What six significant decimal digits do to a double, in terms of rational
    numbers only. *)

From Coq Require Export QArith Qabs Qpower.
From Verif Require Export Spec.Ranges.
Open Scope Z_scope.

(** Value of a finite double (IEEE 754 binary64: sign, 11 exponent bits, 52
    fraction bits; exponent 0 means subnormal). *)
Definition dval (x : dbl) : Q :=
  let e := (x / 2 ^ 52) mod 2 ^ 11 in
  let m := x mod 2 ^ 52 in
  let a := if e =? 0 then m else (2 ^ 52 + m) * 2 ^ (e - 1) in
  ((if 2 ^ 63 <=? x then - a else a) # Z.to_pos (2 ^ 1074)).

(** The decimal number d * 10^k. *)
Definition decimal (d k : Z) : Q := (inject_Z d * (10 # 1) ^ k)%Q.

(** d * 10^k is the six-digit decimal closest to [q]; of two equally close
    ones, the one with the even last digit. *)
Definition closest_six (q : Q) (d k : Z) : Prop :=
  (d = 0 \/ 10 ^ 5 <= Z.abs d < 10 ^ 6) /\
  forall d' k', Z.abs d' < 10 ^ 6 ->
    (Qabs (decimal d k - q) < Qabs (decimal d' k' - q))%Q \/
    (decimal d k == decimal d' k')%Q \/
    (Qabs (decimal d k - q) == Qabs (decimal d' k' - q))%Q /\ Z.even d = true.

(** [y] is the finite double closest to [q]; of two equally close ones, the
    one with the even significand. *)
Definition closest_double (q : Q) (y : dbl) : Prop :=
  size_ok y /\ finite y /\
  forall z, size_ok z -> finite z ->
    (Qabs (dval y - q) < Qabs (dval z - q))%Q \/
    (dval y == dval z)%Q \/
    (Qabs (dval y - q) == Qabs (dval z - q))%Q /\ Z.even y = true.

(** [y] is what is read back when [x] is written with six digits. *)
Definition six_digits_of (x y : dbl) : Prop :=
  (2 ^ 63 <=? y) = (2 ^ 63 <=? x) /\
  exists d k, closest_six (dval x) d k /\ closest_double (decimal d k) y.

(** Exponent field not zero: a normal number. *)
Definition normal (x : dbl) : Prop := (x / 2 ^ 52) mod 2 ^ 11 <> 0.

(** The largest finite double. *)
Definition dbl_max : dbl := 9218868437227405311.

(** A decimal of at most six digits, or the normal double a compiler makes of
    such a decimal. *)
Definition six_digit (x : dbl) : Prop :=
  exists d k, Z.abs d < 10 ^ 6 /\
    ((dval x == decimal d k)%Q \/
     closest_double (decimal d k) x /\ normal x /\ (Qabs (decimal d k) <= dval dbl_max)%Q).
