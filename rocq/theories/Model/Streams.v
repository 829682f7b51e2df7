(** The overloads that take streams, on streams in any state. *)

From Verif Require Export Model.Save.

(** load_msh(std::istream&): load_msh.cpp:29-69, and the stream afterwards.
    Rounds as in [load_msh]. *)
Definition load_stream (c : cfg) (s : istream) : outcome (MshSpec * istream) :=
  obind (load_loop (S (S (List.length (rest s)))) c spec_default s) (fun r =>
  obind (post_process c (fst r)) (fun spec => Ok (spec, snd r))).

(** A std::ostream: what it holds, whether it is good, and how many more bytes
    its buffer takes ([None]: any number). *)
Record ostream := { held : bytes; ogood : bool; room : option nat }.

(** Output: dropped unless the stream is good; badbit once the room is used up. *)
Definition put (b : bytes) (o : ostream) : ostream :=
  if ogood o then
    match room o with
    | None => {| held := held o ++ b; ogood := true; room := None |}
    | Some k => {| held := held o ++ firstn k b; ogood := (List.length b <=? k)%nat; room := Some (k - List.length b)%nat |}
    end
  else o.

(** save_msh(std::ostream&, spec): save_msh.cpp:18-51.  Nothing the code does
    depends on the state of the stream. *)
Definition save_stream (c : cfg) (o : ostream) (s : MshSpec) : ostream * outcome unit :=
  let (b, r) := save_msh c s in (put b o, r).
