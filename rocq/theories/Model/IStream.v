(** [std::istream] and the extraction operations the library uses.

    Transcribed from libstdc++ (istream.tcc, locale_facets.tcc, quoted_string.h)
    for the "C" locale and default flags (skipws | dec); trusted base. *)

From Verif Require Export Model.Cxx Model.Dbl.

(** Unread characters, eofbit and failbit (badbit cannot occur: it needs a
    failing stream buffer). *)
Record istream := { rest : bytes; eofb : bool; failb : bool }.

Definition good (s : istream) : bool := negb (eofb s) && negb (failb s).
Definition opened (b : bytes) : istream := {| rest := b; eofb := false; failb := false |}.
Definition set_fail (s : istream) : istream :=
  {| rest := rest s; eofb := eofb s; failb := true |}.
Definition set_eof (s : istream) : istream :=
  {| rest := rest s; eofb := true; failb := failb s |}.
Definition with_rest (b : bytes) (s : istream) : istream :=
  {| rest := b; eofb := eofb s; failb := failb s |}.

(** Loader computations. *)
Definition M (A : Type) := istream -> outcome (A * istream).
Definition ret {A} (a : A) : M A := fun s => Ok (a, s).
Definition bind {A B} (m : M A) (f : A -> M B) : M B :=
  fun s => match m s with
           | Ok (a, s') => f a s'
           | Throw e => Throw e
           | Undef u => Undef u
           | Abort => Abort
           | Diverge => Diverge
           end.
Notation "x <- m ;; f" := (bind m (fun x => f))
  (at level 61, m at next level, right associativity).
Notation "m ;; f" := (bind m (fun _ => f)) (at level 61, right associativity).
Definition lift {A} (o : outcome A) : M A :=
  fun s => match o with
           | Ok a => Ok (a, s)
           | Throw e => Throw e
           | Undef u => Undef u
           | Abort => Abort
           | Diverge => Diverge
           end.
Definition throw {A} (e : exn) : M A := fun _ => Throw e.
Definition undef {A} (u : ub) : M A := fun _ => Undef u.

(** A sequence of reads into the elements of a vector, in order. *)
Fixpoint mapM {A B} (f : A -> M B) (l : list A) : M (list B) :=
  match l with
  | [] => ret []
  | x :: l' => y <- f x ;; ys <- mapM f l' ;; ret (y :: ys)
  end.

(** assert(cond): nothing with NDEBUG, abort otherwise. *)
Definition massert (c : cfg) (b : bool) : M unit :=
  fun s => if ndebug c then Ok (tt, s) else if b then Ok (tt, s) else Abort.

(** assert(in.good()). *)
Definition assert_good (c : cfg) : M unit := fun s => massert c (good s) s.

(** An operation given by a total function on streams. *)
Definition op {A} (f : istream -> A * istream) : M A := fun s => Ok (f s).

(** Using a variable that may be uninitialised ([None]). *)
Definition use {A} (o : option A) : M A :=
  match o with Some a => ret a | None => undef Indeterminate end.

(** ** Sentry *)

Fixpoint skip_ws (b : bytes) : bytes :=
  match b with
  | c :: b' => if is_ws c then skip_ws b' else b
  | [] => []
  end.

(** istream::sentry with skipws: (ok, stream). *)
Definition sentry (s : istream) : bool * istream :=
  if good s then
    match skip_ws (rest s) with
    | [] => (false, {| rest := []; eofb := true; failb := true |})
    | b => (true, with_rest b s)
    end
  else (false, set_fail s).

(** istream::sentry(noskipws = true). *)
Definition sentry_noskip (s : istream) : bool * istream :=
  if good s then (true, s) else (false, set_fail s).

(** ** Strings *)

(** Longest prefix without whitespace. *)
Fixpoint take_token (b : bytes) : bytes * bytes :=
  match b with
  | [] => ([], [])
  | c :: b' => if is_ws c then ([], b) else let (t, r) := take_token b' in (c :: t, r)
  end.

Definition at_end (b : bytes) (s : istream) : istream :=
  match b with [] => set_eof (with_rest b s) | _ => with_rest b s end.

(** in >> std::string.  Old contents kept when the sentry fails. *)
Definition rd_token (old : bytes) (s : istream) : bytes * istream :=
  let (ok, s1) := sentry s in
  if ok then let (t, r) := take_token (rest s1) in (t, at_end r s1)
  else (old, s1).

(** ** Integers: num_get::_M_extract_int, base 10 *)

Fixpoint take_digits (b : bytes) : list Z * bytes :=
  match b with
  | [] => ([], [])
  | c :: b' => match digit_of c with
               | Some d => let (ds, r) := take_digits b' in (d :: ds, r)
               | None => ([], b)
               end
  end.

Definition take_sign (b : bytes) : bool * bytes :=
  match b with
  | x2d :: b' => (true, b')
  | x2b :: b' => (false, b')
  | _ => (false, b)
  end.

(** Signed extraction into [long] followed by the int clamp of operator>>(int&)
    is the same as clamping the exact value. *)
Definition extract_int (b : bytes) : Z * bool * bytes :=
  let (neg, b1) := take_sign b in
  let (ds, b2) := take_digits b1 in
  match ds with
  | [] => (0, true, b2)
  | _ =>
    let v := if neg then - digits_val ds else digits_val ds in
    if v <? INT_MIN then (INT_MIN, true, b2)
    else if INT_MAX <? v then (INT_MAX, true, b2)
    else (v, false, b2)
  end.

(** Unsigned extraction: a minus sign negates modulo 2^64; the magnitude must
    fit in 64 bits. *)
Definition extract_size (b : bytes) : Z * bool * bytes :=
  let (neg, b1) := take_sign b in
  let (ds, b2) := take_digits b1 in
  match ds with
  | [] => (0, true, b2)
  | _ =>
    let v := digits_val ds in
    if SIZE_MAX <? v then (SIZE_MAX, true, b2)
    else (if neg then to_size (- v) else v, false, b2)
  end.

(** Common part of the arithmetic extractors: sentry, get, setstate. *)
Definition rd_num {A} (ext : bytes -> A * bool * bytes) (old : A) (s : istream) : A * istream :=
  let (ok, s1) := sentry s in
  if ok then
    let '(v, fl, r) := ext (rest s1) in
    let s2 := at_end r s1 in
    (v, if fl then set_fail s2 else s2)
  else (old, s1).

Definition rd_int : Z -> istream -> Z * istream := rd_num extract_int.
Definition rd_size : Z -> istream -> Z * istream := rd_num extract_size.

(** ** Doubles: num_get::_M_extract_float followed by strtod *)

(** Accumulated characters.  [fm]: found_mantissa, [fd]: found_dec,
    [fs]: found_sci.  The library's collapsing of leading zeros is not copied:
    it does not change the value. *)
Fixpoint scan_float (fm fd fs : bool) (b : bytes) : bytes * bytes :=
  match b with
  | [] => ([], [])
  | c :: b' =>
    if is_digit c then let (t, r) := scan_float true fd fs b' in (c :: t, r)
    else if Byte.eqb c x2e && negb fd && negb fs then
      let (t, r) := scan_float fm true fs b' in (c :: t, r)
    else if (Byte.eqb c x65 || Byte.eqb c x45) && negb fs && fm then
      match b' with
      | x2b :: b'' => let (t, r) := scan_float fm fd true b'' in (x65 :: x2b :: t, r)
      | x2d :: b'' => let (t, r) := scan_float fm fd true b'' in (x65 :: x2d :: t, r)
      | _ => let (t, r) := scan_float fm fd true b' in (x65 :: t, r)
      end
    else ([], b)
  end.

(** Grammar of strtod restricted to the characters kept by the scanner; the
    whole string must be consumed: digits [. digits] [e [sign] digits]. *)
Definition parse_exp (b : bytes) : option Z :=
  match b with
  | [] => Some 0
  | x65 :: b1 =>
    let (neg, b2) := take_sign b1 in
    match take_digits b2 with
    | (d :: ds, []) => let v := digits_val (d :: ds) in Some (if neg then - v else v)
    | _ => None
    end
  | _ => None
  end.

(** Mantissa and decimal exponent. *)
Definition parse_dec (b : bytes) : option (Z * Z) :=
  let (ip, b1) := take_digits b in
  let (fp, b2) := match b1 with x2e :: b1' => take_digits b1' | _ => ([], b1) end in
  match ip ++ fp, parse_exp b2 with
  | _ :: _, Some e => Some (digits_val (ip ++ fp), e - zlen fp)
  | _, _ => None
  end.

(** (value, failed, remaining). *)
Definition extract_double (b : bytes) : dbl * bool * bytes :=
  let (neg, b1) := take_sign b in
  let (t, b2) := scan_float false false false b1 in
  match parse_dec t with
  | None => (0, true, b2)
  | Some (m, e) =>
    let a := round_dec m e in
    if inf_mag <=? a then (mk_dbl neg max_mag, true, b2)
    else (mk_dbl neg a, false, b2)
  end.

Definition rd_double : dbl -> istream -> dbl * istream := rd_num extract_double.

(** ** std::quoted extraction *)

(** Characters up to the closing quote; [None] as second component when the
    stream ended first. *)
Fixpoint unquote (b : bytes) : bytes * option bytes :=
  match b with
  | [] => ([], None)
  | x22 :: b' => ([], Some b')
  | x5c :: c :: b' => let (t, r) := unquote b' in (c :: t, r)
  | x5c :: [] => ([], None)
  | c :: b' => let (t, r) := unquote b' in (c :: t, r)
  end.

Definition rd_quoted (old : bytes) (s : istream) : bytes * istream :=
  let (ok, s1) := sentry s in
  if ok then
    match rest s1 with
    | x22 :: b =>
      match unquote b with
      | (t, Some r) => (t, with_rest r s1)
      | (t, None) => (t, {| rest := []; eofb := true; failb := true |})
      end
    | _ => rd_token old s1   (* unget, then in >> string *)
    end
  else (old, s1).

(** ** Unformatted input *)

(** in.peek(). *)
Definition peek (s : istream) : option byte * istream :=
  let (ok, s1) := sentry_noskip s in
  if ok then match rest s1 with
             | c :: _ => (Some c, s1)
             | [] => (None, set_eof s1)
             end
  else (None, s1).

(** in.get(), result ignored. *)
Definition get_char (s : istream) : istream :=
  let (ok, s1) := sentry_noskip s in
  if ok then match rest s1 with
             | _ :: r => with_rest r s1
             | [] => {| rest := []; eofb := true; failb := true |}
             end
  else s1.

(** in.read into an object of [n] bytes whose representation was [old]
    ([n] = length old): the new representation and how many bytes arrived. *)
Definition rd_raw (old : bytes) (s : istream) : bytes * nat * istream :=
  let (ok, s1) := sentry_noskip s in
  if ok then
    let n := List.length old in
    let got := firstn n (rest s1) in
    let k := List.length got in
    if (k <? n)%nat then
      (got ++ skipn k old, k, {| rest := []; eofb := true; failb := true |})
    else (got, k, with_rest (skipn n (rest s1)) s1)
  else (old, O, s1).

(** in.read into size_t / int / double objects. *)
Definition rd_raw_size (old : Z) (s : istream) : Z * istream :=
  let '(b, _, s') := rd_raw (le 8 old) s in (unle b, s').
Definition rd_raw_int (old : Z) (s : istream) : Z * istream :=
  let '(b, _, s') := rd_raw (le 4 old) s in (to_int (unle b), s').
Definition rd_raw_double : dbl -> istream -> dbl * istream := rd_raw_size.

(** in.read into an uninitialised or initialised int variable: the value is
    indeterminate unless all four bytes arrived or the old value was known. *)
Definition rd_raw_int_opt (old : option Z) (s : istream) : option Z * istream :=
  match old with
  | Some v => let (v', s') := rd_raw_int v s in (Some v', s')
  | None =>
    let '(b, k, s') := rd_raw (repeat x00 4) s in
    (if (k =? 4)%nat then Some (to_int (unle b)) else None, s')
  end.

(** Same for size_t. *)
Definition rd_raw_size_opt (old : option Z) (s : istream) : option Z * istream :=
  match old with
  | Some v => let (v', s') := rd_raw_size v s in (Some v', s')
  | None =>
    let '(b, k, s') := rd_raw (repeat x00 8) s in
    (if (k =? 8)%nat then Some (unle b) else None, s')
  end.

(** in >> v for a possibly uninitialised v: only the sentry can leave it alone. *)
Definition rd_num_opt {A} (ext : bytes -> A * bool * bytes) (old : option A) (s : istream)
  : option A * istream :=
  let (ok, s1) := sentry s in
  if ok then
    let '(v, fl, r) := ext (rest s1) in
    let s2 := at_end r s1 in
    (Some v, if fl then set_fail s2 else s2)
  else (old, s1).
Definition rd_int_opt : option Z -> istream -> option Z * istream := rd_num_opt extract_int.
Definition rd_size_opt : option Z -> istream -> option Z * istream := rd_num_opt extract_size.

(** in.read into a whole vector: the sentry runs once even for zero bytes; then
    element-wise reads are the same as one long read, because a short read
    leaves the stream failed. *)
Definition rd_raw_array (f : Z -> istream -> Z * istream) (olds : list Z) : M (list Z) :=
  op (fun s => let (_, s') := sentry_noskip s in (tt, s')) ;;
  mapM (fun o => op (f o)) olds.

(** in.read of [n] bytes into the buffer of a vector of [sz]-byte elements,
    [n] a multiple of [sz]. *)
Definition rd_raw_into (sz n : Z) (f : Z -> istream -> Z * istream) (v : list Z) : M (list Z) :=
  if sz * zlen v <? n then undef OutOfBounds else
  l <- rd_raw_array f (firstn (Z.to_nat (n / sz)) v) ;;
  ret (l ++ skipn (Z.to_nat (n / sz)) v).

(** ** io_utils.cpp:7-19 eat_white_space *)

Definition is_eaten (o : option byte) : bool :=
  match o with
  | Some x0a | Some x0d | Some x20 | Some x09 => true
  | _ => false
  end.

(** eat_white_space(in, 1): lines 9-18 with count = 1. *)
Definition eat1 (s : istream) : unit * istream :=
  let (c, s1) := peek s in
  if is_eaten c then (tt, snd (peek (get_char s1))) else (tt, s1).

(** eat_white_space(in) with the default count SIZE_MAX (io_utils.h:8): every
    step consumes a character, so the number of remaining characters bounds the
    iterations.  Simplification: the count is unbounded (a file shorter than
    2^64 bytes cannot tell). *)
Fixpoint eat_all_loop (fuel : nat) (c : option byte) (s : istream) : istream :=
  match fuel with
  | O => s
  | S f => if is_eaten c then let (c', s') := peek (get_char s) in eat_all_loop f c' s' else s
  end.
Definition eat_all (s : istream) : unit * istream :=
  let (c, s1) := peek s in (tt, eat_all_loop (S (List.length (rest s))) c s1).
