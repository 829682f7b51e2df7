(** Outcomes of C++ code, machine integers, allocation, build configuration. *)

From Verif Require Export Model.Bytes.

(** Exceptions, with the message they are made with: include/mshio/exception.h:8-45
    for the first three.  The others come from the standard library; what
    std::length_error and std::bad_alloc say is up to it and dropped. *)
Inductive exn :=
| UnsupportedFeature (message : bytes)
| InvalidFormat (message : bytes)
| CorruptData (message : bytes)
| LengthError      (* std::length_error, from vector growth *)
| BadAlloc         (* std::bad_alloc *)
| RuntimeError (message : bytes). (* std::runtime_error, from the file-name overloads *)

(** The version tests of load_msh_format.cpp:19-23, load_msh_nodes.cpp:176-180,
    load_msh_elements.cpp:274-278, save_msh_nodes.cpp:124-128,
    save_msh_elements.cpp:141-145 and save_msh_entities.cpp:176-180 throw this. *)
Definition version_unsupported (v : bytes) : exn := UnsupportedFeature (str "Unsupported MSH version: " ++ v).

(** The version tests of load_msh_data.cpp:110 and save_msh_data.cpp:67 throw this. *)
Definition data_version_unsupported (v : bytes) : exn := InvalidFormat (str "Unsupported version " ++ v).

(** what(): exception.h:16, 29 and 42.  The C string ends before the first NUL. *)
Fixpoint c_str (b : bytes) : bytes :=
  match b with
  | [] => []
  | x00 :: _ => []
  | x :: b => x :: c_str b
  end.
Definition what (e : exn) : option bytes :=
  match e with
  | UnsupportedFeature m | InvalidFormat m | CorruptData m | RuntimeError m => Some (c_str m)
  | LengthError | BadAlloc => None
  end.

(** Kinds of undefined behaviour the code can reach. *)
Inductive ub :=
| OutOfBounds      (* vector index or raw read/write past the end *)
| Indeterminate    (* value of an uninitialised variable used *)
| SignedOverflow
| DivByZero
| EmptyBack        (* back() of an empty vector *)
| NegativeCount.   (* negative std::streamsize passed to write *)

Inductive outcome (A : Type) :=
| Ok (a : A)
| Throw (e : exn)
| Undef (u : ub)
| Abort            (* failed assert in a build without NDEBUG *)
| Diverge.         (* loop that never ends (fuel exhausted; see Proofs/Fuel) *)
Arguments Ok {A} a.
Arguments Throw {A} e.
Arguments Undef {A} u.
Arguments Abort {A}.
Arguments Diverge {A}.

Definition obind {A B} (x : outcome A) (f : A -> outcome B) : outcome B :=
  match x with
  | Ok a => f a
  | Throw e => Throw e
  | Undef u => Undef u
  | Abort => Abort
  | Diverge => Diverge
  end.

(** Build configuration and environment.
    [ndebug]: NDEBUG defined (asserts compiled out);
    [nanospline]: MSHIO_EXT_NANOSPLINE defined (CMakeLists.txt option);
    [mem]: largest single allocation, in bytes, that succeeds. *)
Record cfg := { ndebug : bool; nanospline : bool; mem : Z }.

(** Machine integers are [Z] in range. *)
Definition two32 : Z := 4294967296.
Definition two64 : Z := 18446744073709551616.
Definition INT_MAX : Z := 2147483647.
Definition INT_MIN : Z := -2147483648.
Definition SIZE_MAX : Z := 18446744073709551615.
Definition PTRDIFF_MAX : Z := 9223372036854775807.

(** Conversion to size_t (also the result of size_t arithmetic). *)
Definition to_size (z : Z) : Z := z mod two64.

(** Conversion to int / int32_t. *)
Definition to_int (z : Z) : Z :=
  let m := z mod two32 in if m <? 2147483648 then m else m - two32.

(** Length of a vector as a number. *)
Definition zlen {A} (l : list A) : Z := Z.of_nat (List.length l).

(** Growing a vector to [n] elements of [sz] bytes: length_error above
    max_size() = PTRDIFF_MAX / sz, bad_alloc above the memory limit.
    Simplification: capacity is not modelled, so a growth request asks for
    exactly [n] elements. *)
Definition can_hold {A} (c : cfg) (sz n : Z) (old : list A) : outcome unit :=
  if PTRDIFF_MAX / sz <? n then Throw LengthError
  else if n <=? zlen old then Ok tt
  else if mem c <? n * sz then Throw BadAlloc
  else Ok tt.

(** vector::resize(n): keeps the first elements, value-initialises new ones. *)
Definition resize {A} (c : cfg) (sz : Z) (d : A) (n : Z) (old : list A) : outcome (list A) :=
  obind (can_hold c sz n old) (fun _ =>
    Ok (firstn (Z.to_nat n) old ++ repeat d (Z.to_nat n - List.length old)%nat)).

(** vector::emplace_back / push_back. *)
Definition emplace_back {A} (c : cfg) (sz : Z) (x : A) (old : list A) : outcome (list A) :=
  obind (can_hold c sz (zlen old + 1) old) (fun _ => Ok (old ++ [x])).

(** sizeof of the element types (x86-64 System V ABI, libstdc++). *)
Definition sz_int : Z := 4.
Definition sz_size : Z := 8.
Definition sz_double : Z := 8.
Definition sz_string : Z := 32.
Definition sz_NodeBlock : Z := 72.
Definition sz_ElementBlock : Z := 48.
Definition sz_DataEntry : Z := 40.
Definition sz_PointEntity : Z := 56.
Definition sz_Entity : Z := 104.
Definition sz_PhysicalGroup : Z := 40.
Definition sz_Curve : Z := 72.
Definition sz_Patch : Z := 88.
