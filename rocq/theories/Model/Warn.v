(** src/load_msh.cpp, with what is written to std::cerr *)

From Verif Require Export Model.LoadMsh.

(** load_msh.cpp:39-63: what the section dispatch writes to std::cerr for the
    marker [buf].  The eleven known names write nothing; none of the functions
    they call uses std::cerr.  std::cerr is taken to accept every character. *)
Definition dispatch_cerr (buf : bytes) : bytes :=
  if bytes_eqb buf (str "$MeshFormat") then []
  else if bytes_eqb buf (str "$Entities") then []
  else if bytes_eqb buf (str "$PhysicalNames") then []
  else if bytes_eqb buf (str "$Nodes") then []
  else if bytes_eqb buf (str "$Elements") then []
  else if bytes_eqb buf (str "$NodeData") then []
  else if bytes_eqb buf (str "$ElementData") then []
  else if bytes_eqb buf (str "$ElementNodeData") then []
  else if bytes_eqb buf (str "$NanoSplineFormat") then []
  else if bytes_eqb buf (str "$Curves") then []
  else if bytes_eqb buf (str "$Patches") then []
  else str "Warning: skipping section " ++ [x22] ++ buf ++ [x22] ++ [x0a].

(** The body of the while loop: load_msh.cpp:35-64.  The text comes before
    forward_to, so it is written even if forward_to never ends. *)
Definition step_cerr (s : istream) : bytes :=
  let (buf, _) := rd_token [] s in
  if negb (is_section buf) then [] else dispatch_cerr buf.

(** The while loop: load_msh.cpp:34-65, as [load_loop], with the text written
    so far beside the outcome. *)
Fixpoint loud_loop (fuel : nat) (c : cfg) (spec : MshSpec) (s : istream)
  : bytes * outcome (MshSpec * istream) :=
  match fuel with
  | O => ([], Diverge)
  | S f =>
    if eofb s then ([], Ok (spec, s))
    else match load_step c spec s with
         | Ok (spec', s') => let (w, o) := loud_loop f c spec' s' in (step_cerr s ++ w, o)
         | Throw e => (step_cerr s, Throw e)
         | Undef u => (step_cerr s, Undef u)
         | Abort => (step_cerr s, Abort)
         | Diverge => (step_cerr s, Diverge)
         end
  end.

(** load_msh(std::istream&): load_msh.cpp:29-69; load_msh_post_process does not
    use std::cerr. *)
Definition loud_msh_fuel (fuel : nat) (c : cfg) (b : bytes) : bytes * outcome MshSpec :=
  let (w, o) := loud_loop fuel c spec_default (opened b) in
  (w, obind o (fun r => post_process c (fst r))).
Definition loud_msh (c : cfg) (b : bytes) : bytes * outcome MshSpec :=
  loud_msh_fuel (S (S (List.length b))) c b.

(** What it writes to std::cerr. *)
Definition load_cerr (c : cfg) (b : bytes) : bytes := fst (loud_msh c b).
