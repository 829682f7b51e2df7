(** IEEE binary64 values as bit patterns, printing with six significant digits
    and correctly rounded parsing, by exact integer arithmetic.

    This is the standard library's part of the trusted base:
    [ostream << double] with default flags and precision 6 is printf("%.6g"),
    [strtod] is correctly rounded to nearest even (glibc). *)

From Verif Require Export Model.Bytes.

(** A double is its bit pattern, an integer in [0, 2^64). *)
Definition dbl := Z.

Definition two52 : Z := 4503599627370496.
Definition two53 : Z := 9007199254740992.
Definition two63 : Z := 9223372036854775808.

(** Sign bit and the remaining 63 bits. *)
Definition dneg (b : dbl) : bool := two63 <=? b.
Definition dmag (b : dbl) : Z := if two63 <=? b then b - two63 else b.
Definition mk_dbl (neg : bool) (m : Z) : dbl := if neg then two63 + m else m.

(** Magnitude bits of infinity; larger ones are NaN. *)
Definition inf_mag : Z := 9218868437227405312. (* 0x7FF0000000000000 *)
Definition max_mag : Z := 9218868437227405311. (* DBL_MAX *)

Definition is_finite (b : dbl) : bool := dmag b <? inf_mag.

(** Value of a finite magnitude in units of 2^-1074 (the least subnormal). *)
Definition mag_units (a : Z) : Z :=
  let e := a / two52 in
  let m := a mod two52 in
  if e =? 0 then m else (two52 + m) * 2 ^ (e - 1).

(** Division rounded to nearest, ties to even. *)
Definition rne_div (n d : Z) : Z :=
  let q := n / d in
  let r := n mod d in
  if 2 * r <? d then q
  else if d <? 2 * r then q + 1
  else if Z.even q then q else q + 1.

(** Correctly rounded magnitude bits of the rational n/d >= 0, d > 0.
    May exceed [max_mag]; then strtod returns HUGE_VAL. *)
Definition round_pos (n d : Z) : Z :=
  let u := n * 2 ^ 1074 in
  let s := Z.max 0 (Z.log2 (u / d) - 52) in
  s * two52 + rne_div u (d * 2 ^ s).

(** Magnitude bits of m * 10^e. *)
Definition round_dec (m e : Z) : Z :=
  if 0 <=? e then round_pos (m * 10 ^ e) 1 else round_pos m (10 ^ (- e)).

(** Decimal exponent X with 10^X <= v < 10^(X+1) for v = u * 2^-1074, u > 0:
    start from an estimate by the binary logarithm and step up. *)
Fixpoint dec_exp_up (fuel : nat) (u : Z) (X : Z) : Z :=
  match fuel with
  | O => X
  | S f =>
    if u * 10 ^ 400 <? 2 ^ 1074 * 10 ^ (X + 401) then X else dec_exp_up f u (X + 1)
  end.

Definition dec_exp (u : Z) : Z :=
  dec_exp_up 5 u ((Z.log2 u - 1074) * 30103 / 100000 - 1).

(** The %.5e conversion: six digits D in [10^5, 10^6) and exponent X, after
    rounding half to even and the possible carry 9.99999.. -> 10.0000. *)
Definition sci6 (u : Z) : Z * Z :=
  let X := dec_exp u in
  let D := rne_div (u * 10 ^ 400) (2 ^ 1074 * 10 ^ (X + 395)) in
  if D =? 1000000 then (100000, X + 1) else (D, X).

(** Remove trailing zeros of a digit list (given most significant first). *)
Fixpoint strip0 (ds_rev : list Z) : list Z :=
  match ds_rev with
  | 0 :: ds' => strip0 ds'
  | _ => ds_rev
  end.

Definition strip_zeros (ds : list Z) : list Z := rev (strip0 (rev ds)).

(** The six digits of D, most significant first. *)
Definition six_digits (D : Z) : list Z :=
  [D / 100000; D / 10000 mod 10; D / 1000 mod 10; D / 100 mod 10; D / 10 mod 10; D mod 10].

(** Exponent part e+XX / e-XX, at least two digits. *)
Definition show_exp (X : Z) : bytes :=
  let a := Z.abs X in
  x65 :: (if X <? 0 then x2d else x2b) ::
  (if a <? 10 then x30 :: show_nonneg a else show_nonneg a).

Definition chrs (ds : list Z) : bytes := map digit_chr ds.

(** %.6g of the positive value with %.5e conversion (D, X). *)
Definition show_g (D X : Z) : bytes :=
  let ds := strip_zeros (six_digits D) in
  if (-4 <=? X) && (X <? 6) then
    if X <? 0 then
      x30 :: x2e :: repeat x30 (Z.to_nat (- X - 1)) ++ chrs ds
    else
      let k := Z.to_nat (X + 1) in
      if (List.length ds <=? k)%nat then chrs ds ++ repeat x30 (k - List.length ds)
      else chrs (firstn k ds) ++ x2e :: chrs (skipn k ds)
  else
    match ds with
    | d :: [] => digit_chr d :: show_exp X
    | d :: rest => digit_chr d :: x2e :: chrs rest ++ show_exp X
    | [] => []
    end.

Definition show_mag (a : Z) : bytes :=
  if a =? 0 then [x30]
  else if a =? inf_mag then str "inf"
  else if inf_mag <? a then str "nan"
  else let (D, X) := sci6 (mag_units a) in show_g D X.

(** [out << d]. *)
Definition show_double (b : dbl) : bytes :=
  (if dneg b then [x2d] else []) ++ show_mag (dmag b).
