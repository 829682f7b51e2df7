(** Bytes, byte strings and little-endian object representations.

    Platform assumption (trusted base): x86-64, 8-bit bytes, little endian. *)

From Coq Require Export ZArith List Bool String Lia.
From Coq Require Export Init.Byte.
Export ListNotations.
Open Scope Z_scope.

(** A [std::string] / the contents of a stream buffer. *)
Definition bytes := list byte.

(** Byte string literals (only used on printable ASCII). *)
Definition str (s : String.string) : bytes := String.list_byte_of_string s.

(** [unsigned char] value of a byte. *)
Definition b2z (b : byte) : Z := Z.of_N (Byte.to_N b).

(** Conversion to [unsigned char] (reduces modulo 256). *)
Definition z2b (z : Z) : byte :=
  match Byte.of_N (Z.to_N (z mod 256)) with Some b => b | None => x00 end.

(** [operator==] on [std::string]. *)
Fixpoint bytes_eqb (a b : bytes) : bool :=
  match a, b with
  | [], [] => true
  | x :: a', y :: b' => Byte.eqb x y && bytes_eqb a' b'
  | _, _ => false
  end.

(** Object representation of an unsigned [n]-byte integer. *)
Fixpoint le (n : nat) (z : Z) : bytes :=
  match n with
  | O => []
  | S n' => z2b z :: le n' (z / 256)
  end.

(** Value of an object representation. *)
Fixpoint unle (bs : bytes) : Z :=
  match bs with
  | [] => 0
  | b :: bs' => b2z b + 256 * unle bs'
  end.

(** Whitespace of the "C" locale's [ctype<char>]: space \t \n \v \f \r. *)
Definition is_ws (b : byte) : bool :=
  match b with
  | x20 | x09 | x0a | x0b | x0c | x0d => true
  | _ => false
  end.

(** Decimal digit test and value. *)
Definition digit_of (b : byte) : option Z :=
  match b with
  | x30 => Some 0 | x31 => Some 1 | x32 => Some 2 | x33 => Some 3 | x34 => Some 4
  | x35 => Some 5 | x36 => Some 6 | x37 => Some 7 | x38 => Some 8 | x39 => Some 9
  | _ => None
  end.

Definition is_digit (b : byte) : bool :=
  match digit_of b with Some _ => true | None => false end.

(** The character of a digit 0..9. *)
Definition digit_chr (d : Z) : byte :=
  if d =? 0 then x30 else if d =? 1 then x31 else if d =? 2 then x32
  else if d =? 3 then x33 else if d =? 4 then x34 else if d =? 5 then x35
  else if d =? 6 then x36 else if d =? 7 then x37 else if d =? 8 then x38 else x39.

(** Digits of [n >= 0], least significant first; at least one digit.
    [fuel] bounds the number of digits. *)
Fixpoint digits_rev (fuel : nat) (n : Z) : list Z :=
  match fuel with
  | O => []
  | S f => if n <? 10 then [n] else (n mod 10) :: digits_rev f (n / 10)
  end.

(** Enough fuel: a number with [k] bits has at most [k] decimal digits. *)
Definition dec_digits (n : Z) : list Z :=
  rev (digits_rev (S (Z.to_nat (Z.log2 n))) n).

(** [operator<<] of a non-negative integer in base 10. *)
Definition show_nonneg (n : Z) : bytes := map digit_chr (dec_digits n).

(** [operator<<] of a signed integer. *)
Definition show_Z (n : Z) : bytes :=
  if n <? 0 then x2d :: show_nonneg (- n) else show_nonneg n.

(** Value of a digit string. *)
Definition digits_val (ds : list Z) : Z := fold_left (fun acc d => 10 * acc + d) ds 0.
