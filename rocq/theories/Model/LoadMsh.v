(** src/load_msh.cpp *)

From Verif Require Export Model.LoadNodes Model.LoadElements Model.LoadEntities
  Model.LoadData Model.LoadExt Model.Post.

(** forward_to: load_msh.cpp:21-27.  [buf] is the local buffer. *)
Fixpoint forward_loop (fuel : nat) (flag buf : bytes) (s : istream) : outcome (unit * istream) :=
  match fuel with
  | O => Diverge
  | S f =>
    if eofb s || bytes_eqb buf flag then Ok (tt, s)
    else let (buf', s') := rd_token buf s in forward_loop f flag buf' s'
  end.
Definition forward_to (flag : bytes) : M unit :=
  fun s => forward_loop (S (S (List.length (rest s)))) flag [] s.

(** Section dispatch: load_msh.cpp:39-63 (the warning goes to stderr) *)
Definition dispatch (c : cfg) (buf : bytes) (spec : MshSpec) : M MshSpec :=
  if bytes_eqb buf (str "$MeshFormat") then load_mesh_format spec
  else if bytes_eqb buf (str "$Entities") then load_entities c spec
  else if bytes_eqb buf (str "$PhysicalNames") then load_physical_groups c spec
  else if bytes_eqb buf (str "$Nodes") then load_nodes c spec
  else if bytes_eqb buf (str "$Elements") then load_elements c spec
  else if bytes_eqb buf (str "$NodeData") then load_node_data c spec
  else if bytes_eqb buf (str "$ElementData") then load_element_data c spec
  else if bytes_eqb buf (str "$ElementNodeData") then load_element_node_data c spec
  else if bytes_eqb buf (str "$NanoSplineFormat") then load_nanospline_format spec
  else if bytes_eqb buf (str "$Curves") then load_curves c spec
  else if bytes_eqb buf (str "$Patches") then load_patches c spec
  else ret spec.

(** load_msh.cpp:38 *)
Definition end_marker (buf : bytes) : bytes := str "$End" ++ tl buf.

(** load_msh.cpp:37 *)
Definition is_section (buf : bytes) : bool :=
  match buf with x24 :: _ => true | _ => false end.

(** The body of the while loop: load_msh.cpp:35-64 *)
Definition load_step (c : cfg) (spec : MshSpec) : M MshSpec :=
  fun s =>
  let (buf, s1) := rd_token [] s in
  if negb (is_section buf) then Ok (spec, s1)
  else (spec' <- dispatch c buf spec ;; forward_to (end_marker buf) ;; ret spec') s1.

(** The while loop: load_msh.cpp:34-65 *)
Fixpoint load_loop (fuel : nat) (c : cfg) (spec : MshSpec) (s : istream)
  : outcome (MshSpec * istream) :=
  match fuel with
  | O => Diverge
  | S f =>
    if eofb s then Ok (spec, s)
    else obind (load_step c spec s) (fun r => load_loop f c (fst r) (snd r))
  end.

(** load_msh(std::istream&): load_msh.cpp:29-69, on a freshly opened stream
    holding [b]; each round of the loop that does not end it consumes input
    unless the stream is stuck, so [2 + length b] rounds suffice. *)
Definition load_msh_fuel (fuel : nat) (c : cfg) (b : bytes) : outcome MshSpec :=
  obind (load_loop fuel c spec_default (opened b)) (fun r => post_process c (fst r)).
Definition load_msh (c : cfg) (b : bytes) : outcome MshSpec :=
  load_msh_fuel (S (S (List.length b))) c b.
