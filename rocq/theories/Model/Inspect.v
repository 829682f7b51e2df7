(** examples/msh_inspect.cpp: what it prints to std::cout and the file it
    writes.

    Simplifications: std::cout never fails; nothing is modelled of std::cerr. *)

From Verif Require Export Model.Fs.

(** std::cout << ... << std::endl *)
Definition say (b : bytes) : W := out (b ++ endl).

(** The number of tags and, if there are any, a line with all of them:
    msh_inspect.cpp:23-31 (points), 41-58 (curves), 68-85 (surfaces), 95-112
    (volumes). *)
Definition inspect_tags (label : string) (l : list Z) : W :=
  say (str label ++ show_Z (zlen l)) +++
  (if 0 <? zlen l then
     out (str "    ") +++
     wfor (iota (zlen l)) (fun i => wlet (at_ l i) (fun x => out (show_Z x ++ str " "))) +++
     out endl
   else wret).

(** msh_inspect.cpp:20-31 *)
Definition inspect_point (p : PointEntity) : W :=
  say (str "  entity tag: " ++ show_Z (pe_tag p)) +++
  say (str "  entity coordinates: " ++ show_double (pe_x p) ++ str " " ++ show_double (pe_y p) ++
       str " " ++ show_double (pe_z p)) +++
  inspect_tags "  Num physical groups: " (pe_phys p).

(** msh_inspect.cpp:36-58 (curves), 63-85 (surfaces), 90-112 (volumes) *)
Definition inspect_entity (label : string) (e : Entity) : W :=
  say (str "  entity tag: " ++ show_Z (en_tag e)) +++
  say (str "  bounding box min: " ++ show_double (en_min_x e) ++ str " " ++ show_double (en_min_y e) ++
       str " " ++ show_double (en_min_z e)) +++
  say (str "  bounding box max: " ++ show_double (en_max_x e) ++ str " " ++ show_double (en_max_y e) ++
       str " " ++ show_double (en_max_z e)) +++
  inspect_tags "  Num physical groups: " (en_phys e) +++
  inspect_tags label (en_bnd e).

(** msh_inspect.cpp:18-113 *)
Definition inspect_entities (en : Entities) : W :=
  say (str "Num point entities: " ++ show_Z (zlen (points en))) +++
  wfor (points en) inspect_point +++
  say (str "Num curve entities: " ++ show_Z (zlen (curves_e en))) +++
  wfor (curves_e en) (inspect_entity "  Num boundary points: ") +++
  say (str "Num surface entities: " ++ show_Z (zlen (surfaces_e en))) +++
  wfor (surfaces_e en) (inspect_entity "  Num boundary curves: ") +++
  say (str "Num volume entities: " ++ show_Z (zlen (volumes_e en))) +++
  wfor (volumes_e en) (inspect_entity "  Num boundary surfaces: ").

(** msh_inspect.cpp:115-120 *)
Definition inspect_groups (l : list PhysicalGroup) : W :=
  say (str "Num physical groups: " ++ show_Z (zlen l)) +++
  wfor l (fun g =>
    say (str "  group dim: " ++ show_Z (pg_dim g)) +++
    say (str "  group tag: " ++ show_Z (pg_tag g)) +++
    say (str "  group name: " ++ quoted (pg_name g))).

(** msh_inspect.cpp:128-139.  [3 + block.parametric] is an int, converted to
    size_t by the comparison and by the multiplication. *)
Definition inspect_node_block (b : NodeBlock) : W :=
  say (str "  entity dim: " ++ show_Z (nb_dim b)) +++
  say (str "  entity tag: " ++ show_Z (nb_tag b)) +++
  say (str "  parametric: " ++ show_Z (nb_parametric b)) +++
  say (str "  num nodes in block: " ++ show_Z (nb_num b)) +++
  wfor (iota (nb_num b)) (fun j =>
    wlet (at_ (nb_tags b) j) (fun t => out (str "    " ++ show_Z t ++ str ": ")) +++
    (if INT_MAX <? 3 + nb_parametric b then ([], Undef SignedOverflow) else
     wfor (iota (to_size (3 + nb_parametric b))) (fun k =>
       wlet (at_ (nb_data b) (to_size (j * to_size (3 + nb_parametric b) + k))) (fun x =>
       out (show_double x ++ str " ")))) +++
    out endl).

(** msh_inspect.cpp:122-140 *)
Definition inspect_nodes (n : Nodes) : W :=
  say (str "Num nodes: " ++ show_Z (n_num_nodes n)) +++
  say (str "Num node blocks: " ++ show_Z (n_num_blocks n)) +++
  say (str "min node tag: " ++ show_Z (n_min n)) +++
  say (str "max node tag: " ++ show_Z (n_max n)) +++
  wfor (iota (n_num_blocks n)) (fun i => wlet (at_ (n_blocks n) i) inspect_node_block).

(** msh_inspect.cpp:147-160 *)
Definition inspect_element_block (b : ElementBlock) : W :=
  say (str "  entity dim: " ++ show_Z (eb_dim b)) +++
  say (str "  entity tag: " ++ show_Z (eb_tag b)) +++
  say (str "  entity type: " ++ show_Z (eb_type b)) +++
  say (str "  num elements in block: " ++ show_Z (eb_num b)) +++
  wlet (nodes_per_element (eb_type b)) (fun n =>
  wfor (iota (eb_num b)) (fun j =>
    wlet (at_ (eb_data b) (to_size (j * (n + 1)))) (fun x => out (str "    " ++ show_Z x ++ str ": ")) +++
    wfor (iota n) (fun k0 => let k := k0 + 1 in
      wlet (at_ (eb_data b) (to_size (j * (n + 1) + k))) (fun x => out (show_Z x ++ str " "))) +++
    out endl)).

(** msh_inspect.cpp:142-161 *)
Definition inspect_elements (e : Elements) : W :=
  say (str "Num elements: " ++ show_Z (e_num_elements e)) +++
  say (str "Num element blocks: " ++ show_Z (e_num_blocks e)) +++
  say (str "min element tag: " ++ show_Z (e_min e)) +++
  say (str "max element tag: " ++ show_Z (e_max e)) +++
  wfor (iota (e_num_blocks e)) (fun i => wlet (at_ (e_blocks e) i) inspect_element_block).

(** int to double, as in the loop over integer tags: msh_inspect.cpp:177 *)
Definition dbl_of_int (z : Z) : dbl := mk_dbl (z <? 0) (round_pos (Z.abs z) 1).

(** The lambda print_data: msh_inspect.cpp:163-192 *)
Definition print_data (d : Data) : W :=
  let h := d_header d in
  say (str "Num string tags: " ++ show_Z (zlen (string_tags h))) +++
  wfor (string_tags h) (fun t => out (quoted t ++ str " ")) +++
  out endl +++
  say (str "Num real tags: " ++ show_Z (zlen (real_tags h))) +++
  wfor (real_tags h) (fun t => out (show_double t ++ str " ")) +++
  out endl +++
  say (str "Num int tags: " ++ show_Z (zlen (int_tags h))) +++
  wfor (int_tags h) (fun t => out (show_double (dbl_of_int t) ++ str " ")) +++
  out endl +++
  wlet (at_ (int_tags h) 1) (fun f =>
  wlet (at_ (int_tags h) 2) (fun n =>
  wfor (iota (to_size n)) (fun i => wlet (at_ (d_entries d) i) (fun e =>
    out (str "  " ++ show_Z (de_tag e) ++ str ": ") +++
    wfor (iota (to_size f)) (fun j => wlet (at_ (de_data e) j) (fun x => out (show_double x ++ str " "))) +++
    out endl)))).

(** msh_inspect.cpp:194-199, 201-206 *)
Definition inspect_data (label : string) (l : list Data) : W :=
  if 0 <? zlen l then say (str label) +++ wfor l print_data else wret.

(** msh_inspect.cpp:14-206 *)
Definition inspect (s : MshSpec) : W :=
  say (str "sizeof(int): " ++ show_Z sz_int) +++
  say (str "sizeof(size_t) " ++ show_Z sz_size) +++
  say (str "sizeof(double) " ++ show_Z sz_double) +++
  inspect_entities (entities s) +++
  inspect_groups (physical_groups s) +++
  inspect_nodes (nodes s) +++
  inspect_elements (elements s) +++
  inspect_data "Node data: " (node_data s) +++
  inspect_data "Element data: " (element_data s).

(** main: msh_inspect.cpp:5-211.  [args] is argv without the program's name; the
    result is the file system, the text on std::cout and the exit status, or
    the uncaught exception. *)
Definition msh_inspect (c : cfg) (cap : option nat) (st : fs) (args : list bytes) : fs * bytes * outcome Z :=
  match args with
  | [name] =>
    match load_file c st name with
    | Ok s =>
      let (text, r) := inspect s in
      match r with
      | Ok tt =>
        let (st', r') := save_file c cap st (str "tmp.msh") s in
        (st', text, obind r' (fun _ => Ok 0))
      | Throw e => (st, text, Throw e)
      | Undef u => (st, text, Undef u)
      | Abort => (st, text, Abort)
      | Diverge => (st, text, Diverge)
      end
    | Throw e => (st, [], Throw e)
    | Undef u => (st, [], Undef u)
    | Abort => (st, [], Abort)
    | Diverge => (st, [], Diverge)
    end
  | _ => (st, [], Ok 1)
  end.
