(** The section loop of load_msh as a transition system, used to say what
    "runs forever" means without fuel. *)

From Verif Require Import Model.LoadMsh.

(** A point where one of the two while loops evaluates its condition:
    load_msh.cpp:34 ([Main]) or load_msh.cpp:24 ([Fwd], inside forward_to). *)
Inductive point :=
| Main (spec : MshSpec) (s : istream)
| Fwd (flag buf : bytes) (spec : MshSpec) (s : istream).

Definition stream_of (p : point) : istream :=
  match p with Main _ s => s | Fwd _ _ _ s => s end.

(** From one loop test to the next. *)
Inductive step (c : cfg) : point -> point -> Prop :=
| step_word spec s buf s1 :
    eofb s = false -> rd_token [] s = (buf, s1) -> is_section buf = false ->
    step c (Main spec s) (Main spec s1)
| step_section spec s buf s1 spec' s2 :
    eofb s = false -> rd_token [] s = (buf, s1) -> is_section buf = true ->
    dispatch c buf spec s1 = Ok (spec', s2) ->
    step c (Main spec s) (Fwd (end_marker buf) [] spec' s2)
| step_skip flag buf spec s buf' s' :
    eofb s = false -> buf <> flag -> rd_token buf s = (buf', s') ->
    step c (Fwd flag buf spec s) (Fwd flag buf' spec s')
| step_found flag buf spec s :
    eofb s = true \/ buf = flag ->
    step c (Fwd flag buf spec s) (Main spec s).

Inductive steps (c : cfg) : nat -> point -> point -> Prop :=
| steps_0 p : steps c O p p
| steps_S n p q r : step c p q -> steps c n q r -> steps c (S n) p r.

(** The loop tests met by load_msh on input [b]. *)
Definition start (b : bytes) : point := Main spec_default (opened b).
Definition reached (c : cfg) (b : bytes) (p : point) : Prop := exists n, steps c n (start b) p.

(** An execution without end. *)
Definition runs_forever (c : cfg) (b : bytes) : Prop :=
  forall n, exists p, steps c n (start b) p.

(** A read has failed although characters remain. *)
Definition stuck (s : istream) : Prop := failb s = true /\ eofb s = false.

(** load_msh meets the section marker [name] with state [spec], [s] being the
    stream just after the marker. *)
Definition meets (c : cfg) (b : bytes) (name : bytes) (spec : MshSpec) (s : istream) : Prop :=
  exists s0, reached c b (Main spec s0) /\ eofb s0 = false /\ rd_token [] s0 = (name, s).

(** [p] is a sequence of complete sections leading to [spec]: whatever follows,
    the section loop arrives right after it, up to whitespace. *)
Definition complete (c : cfg) (p : bytes) (spec : MshSpec) : Prop :=
  forall rest, exists u, Forall (fun b => is_ws b = true) u /\
    reached c (p ++ rest) (Main spec (opened (u ++ rest))).
