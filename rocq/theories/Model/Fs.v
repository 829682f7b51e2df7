(** The file-name overloads over a file-system state, and output devices of
    limited capacity. *)

From Verif Require Export Model.Save.

(** File contents by name, and which names can be opened for writing. *)
Record fs := { files : bytes -> option bytes; writable : bytes -> bool }.

Definition upd (m : bytes -> option bytes) (k : bytes) (v : option bytes) : bytes -> option bytes :=
  fun x => if bytes_eqb x k then v else m x.

(** A device that stores only the first [cap] bytes given to it
    ([None]: unlimited); the stream goes bad but nothing is thrown. *)
Definition stored (cap : option nat) (b : bytes) : bytes :=
  match cap with None => b | Some k => firstn k b end.

(** load_msh(const std::string&): load_msh.cpp:71-78 *)
Definition load_file (c : cfg) (st : fs) (name : bytes) : outcome MshSpec :=
  match files st name with
  | None => Throw (RuntimeError (str "Input file does not exist!"))
  | Some b => load_msh c b
  end.

(** save_msh(const std::string&, spec): save_msh.cpp:53-60.  Opening truncates;
    an exception or normal return closes the file, flushing what was written.
    [cap] is the room on the device. *)
Definition save_file (c : cfg) (cap : option nat) (st : fs) (name : bytes) (s : MshSpec)
  : fs * outcome unit :=
  if writable st name then
    let (b, r) := save_msh c s in
    ({| files := upd (files st) name (Some (stored cap b)); writable := writable st |}, r)
  else (st, Throw (RuntimeError (str "Unable to open output file to write!"))).
