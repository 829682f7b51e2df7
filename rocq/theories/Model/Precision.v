(** Saving to streams whose precision has been changed.

    Nothing in src/ or include/ sets the precision or a format flag of a stream,
    so save_msh(std::ostream&, const MshSpec&) (save_msh.cpp:18-51) prints
    doubles with the precision the stream arrives with. The overload that takes
    a file name (save_msh.cpp:53-60) makes its own stream, whose precision is 6.

    The stream prints a double as printf does with "%.*g" and its precision, a
    negative precision being taken as 6 (libstdc++, num_put::_M_insert_float);
    printf takes 0 as 1. Only the precision varies here: the format flags and
    the locale are those of a new stream, and the precision fits in an int. *)

From Verif Require Import Model.Save.

(** Number of significant digits. *)
Definition signif (p : Z) : Z := if p <? 0 then 6 else if p =? 0 then 1 else p.

(** The %.(n-1)e conversion of u * 2^-1074 > 0: n digits D and exponent X. *)
Definition sci (n u : Z) : Z * Z :=
  let X := dec_exp u in
  let k := X - (n - 1) in
  let j := Z.max 0 (- k) in
  let D := rne_div (u * 10 ^ j) (2 ^ 1074 * 10 ^ (k + j)) in
  if D =? 10 ^ n then (10 ^ (n - 1), X + 1) else (D, X).

(** %.ng of the positive value with %.(n-1)e conversion (D, X). *)
Definition show_gn (n D X : Z) : bytes :=
  let ds := strip_zeros (dec_digits D) in
  if (-4 <=? X) && (X <? n) then
    if X <? 0 then
      x30 :: x2e :: repeat x30 (Z.to_nat (- X - 1)) ++ chrs ds
    else
      let k := Z.to_nat (X + 1) in
      if (List.length ds <=? k)%nat then chrs ds ++ repeat x30 (k - List.length ds)
      else chrs (firstn k ds) ++ x2e :: chrs (skipn k ds)
  else
    match ds with
    | d :: [] => digit_chr d :: show_exp X
    | d :: rest => digit_chr d :: x2e :: chrs rest ++ show_exp X
    | [] => []
    end.

Definition show_magn (n a : Z) : bytes :=
  if a =? 0 then [x30]
  else if a =? inf_mag then str "inf"
  else if inf_mag <? a then str "nan"
  else let (D, X) := sci n (mag_units a) in show_gn n D X.

(** [out << d] with [out.precision(p)]. *)
Definition show_prec (p : Z) (b : dbl) : bytes :=
  (if dneg b then [x2d] else []) ++ show_magn (signif p) (dmag b).

(** [out.precision(p); save_msh(out, spec)] *)
Definition save_prec (p : Z) (c : cfg) (s : MshSpec) : W := @save_msh (show_prec p) c s.
