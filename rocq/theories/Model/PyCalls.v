(** python/pymshio.cpp:254-259: the functions of the Python module, and which
    Python exceptions they raise.

    Trusted about nanobind and CPython: std::bad_alloc becomes MemoryError,
    std::length_error becomes ValueError, and every other std::exception
    becomes RuntimeError (nanobind's default translator; none is registered in
    pymshio.cpp).  The text is what() decoded as strict UTF-8; if that fails,
    UnicodeDecodeError is raised instead.  A str argument becomes the
    std::string of its UTF-8 encoding.

    Simplifications: the texts of MemoryError and ValueError are dropped;
    arguments of other types or beyond int, for which TypeError is raised
    before the library is called, are not modelled. *)

From Verif Require Export Model.Python Model.Validate.

Inductive pyexc :=
| PyMemoryError
| PyValueError
| PyRuntimeError (text : bytes)
| PyUnicodeDecodeError.

Definition raised (e : exn) : pyexc :=
  match e with
  | BadAlloc => PyMemoryError
  | LengthError => PyValueError
  | _ => match what e with
         | Some t => match py_str t with Some t => PyRuntimeError t | None => PyUnicodeDecodeError end
         | None => PyRuntimeError []
         end
  end.

(** A call: it returns, raises, runs into undefined behaviour, ends the
    interpreter by a failed assert, or never returns. *)
Inductive pycall (A : Type) :=
| Returns (a : A)
| Raises (x : pyexc)
| Undefined (u : ub)
| Aborts
| Hangs.
Arguments Returns {A}. Arguments Raises {A}. Arguments Undefined {A}. Arguments Aborts {A}. Arguments Hangs {A}.

Definition called {A} (o : outcome A) : pycall A :=
  match o with
  | Ok a => Returns a
  | Throw e => Raises (raised e)
  | Undef u => Undefined u
  | Abort => Aborts
  | Diverge => Hangs
  end.

(** pymshio.cpp:254.  The name ends before its first NUL: std::ifstream opens
    filename.c_str(). *)
Definition py_load_msh (c : cfg) (st : fs) (name : bytes) : pycall MshSpec := called (load_file c st (c_str name)).

(** pymshio.cpp:255-256 *)
Definition py_save_msh (c : cfg) (cap : option nat) (st : fs) (name : bytes) (s : MshSpec) : fs * pycall unit :=
  let (st', r) := save_file c cap st (c_str name) s in (st', called r).

(** pymshio.cpp:257-259 *)
Definition py_validate_spec (s : MshSpec) : pycall unit := called (validate_spec s).
Definition py_nodes_per_element (t : Z) : pycall Z := called (nodes_per_element t).
Definition py_get_element_dim (t : Z) : pycall Z := called (get_element_dim t).
