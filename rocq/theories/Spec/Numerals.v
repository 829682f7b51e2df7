(** Decimal numerals as bytes, and the numbers they denote. *)

From Verif Require Export Spec.Rounding.

(** ASCII digits. *)
Definition digit_is (c : byte) (d : Z) : Prop := 0 <= d <= 9 /\ Z.of_N (Byte.to_N c) = 48 + d.

(** [k] digits denoting [n]. *)
Inductive digits : bytes -> Z -> Z -> Prop :=
| digits_nil : digits [] 0 0
| digits_snoc w k n c d : digits w k n -> digit_is c d -> digits (w ++ [c]) (k + 1) (10 * n + d).

(** Sign, and whether it is a minus. *)
Inductive sign : bytes -> bool -> Prop :=
| sign_none : sign [] false
| sign_plus : sign [x2b] false
| sign_minus : sign [x2d] true.

Definition signed (minus : bool) (z : Z) : Z := if minus then - z else z.

(** [sign] digits *)
Definition integer (w : bytes) (z : Z) : Prop :=
  exists s minus t k n, w = s ++ t /\ sign s minus /\ digits t k n /\ 1 <= k /\ z = signed minus n.

(** Nothing, or e or E and an integer. *)
Definition exponent (w : bytes) (e : Z) : Prop :=
  w = [] /\ e = 0 \/ exists c t, w = c :: t /\ (c = x65 \/ c = x45) /\ integer t e.

(** [sign] digits [. digits] [exponent], with a digit before or after the point. *)
Definition real (w : bytes) (minus : bool) (q : Q) : Prop :=
  exists s ip p fp ex ki ni kf nf e,
    w = s ++ ip ++ p ++ fp ++ ex /\ sign s minus /\
    digits ip ki ni /\ digits fp kf nf /\ 1 <= ki + kf /\ (p = [x2e] \/ p = [] /\ fp = []) /\
    exponent ex e /\ q = decimal (signed minus (ni * 10 ^ kf + nf)) (e - kf).

(** Words standing for an int, a size_t, a double. *)
Definition int_word (z : Z) (w : bytes) : Prop := integer w z /\ int_ok z.
Definition size_word (z : Z) (w : bytes) : Prop :=
  integer w z /\ size_ok z.
Definition real_word (x : dbl) (w : bytes) : Prop :=
  exists minus q, real w minus q /\ (Qabs q <= dval dbl_max)%Q /\
    closest_double q x /\ (2 ^ 63 <=? x) = minus.
