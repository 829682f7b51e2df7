(** src/load_msh_post_process.cpp *)

From Verif Require Export Model.LoadElements.

(** vector::operator[] *)
Definition at_ {A} (l : list A) (i : Z) : outcome A :=
  if i <? 0 then Undef OutOfBounds else
  match nth_error l (Z.to_nat i) with Some x => Ok x | None => Undef OutOfBounds end.

(** The two arrays entity_dims and entity_tags (lines 17-18) as one finite map
    from index to (dim, tag); [size] elements, initially (0, 0). *)
Definition arrs := Z -> Z * Z.
Definition arr_set (a : arrs) (i : Z) (v : Z * Z) : arrs := fun j => if j =? i then v else a j.

(** One assignment pair, lines 27-29. *)
Definition mark (size mn : Z) (dim tag : Z) (node : Z) (a : arrs) : outcome arrs :=
  let idx := to_size (node - mn) in
  if size <=? idx then Undef OutOfBounds
  else Ok (arr_set a idx (to_size dim, to_size tag)).

(** Sequential loops. *)
Fixpoint ofold {A S} (f : A -> S -> outcome S) (l : list A) (s : S) : outcome S :=
  match l with
  | [] => Ok s
  | x :: l' => obind (f x s) (ofold f l')
  end.

(** for (size_t i = 0; i < n; i++) *)
Definition iota (n : Z) : list Z := map Z.of_nat (seq 0 (Z.to_nat n)).

(** Lines 23-32 for one block. *)
Definition mark_block (size mn : Z) (b : ElementBlock) (a : arrs) : outcome arrs :=
  obind (nodes_per_element (eb_type b)) (fun n =>
  ofold (fun i a =>
    ofold (fun j a =>
      obind (at_ (eb_data b) (to_size (i * (n + 1) + j + 1))) (fun node =>
      mark size mn (eb_dim b) (eb_tag b) node a)) (iota n) a) (iota (eb_num b)) a).

(** State of the node loop, lines 34-63: finished and current blocks in reverse
    order (tags and data of the current block too), curr_dim and curr_tag. *)
Record regroup := { rg_blocks : list NodeBlock; rg_dim : Z; rg_tag : Z }.

(** push_back on the last block, lines 56-61 *)
Definition push_node (tag : Z) (x y z : dbl) (b : NodeBlock) : NodeBlock :=
  {| nb_dim := nb_dim b; nb_tag := nb_tag b; nb_parametric := nb_parametric b;
     nb_num := nb_num b; nb_tags := nb_tags b ++ [tag]; nb_data := nb_data b ++ [x; y; z] |}.

(** Lines 40-62 for node i of a block; [rg_blocks] has the last block first. *)
Definition regroup_node (c : cfg) (size mn : Z) (a : arrs) (b : NodeBlock) (i : Z) (st : regroup)
  : outcome regroup :=
  obind (at_ (nb_tags b) i) (fun t =>
  let idx := to_size (t - mn) in
  if size <=? idx then Undef OutOfBounds else
  let (dim, tag) := a idx in
  let st1 :=
    if negb (dim =? rg_dim st) || negb (tag =? rg_tag st) then
      {| rg_blocks := {| nb_dim := to_int dim; nb_tag := to_int tag; nb_parametric := 0;
                         nb_num := 0; nb_tags := []; nb_data := [] |} :: rg_blocks st;
         rg_dim := dim; rg_tag := tag |}
    else st in
  match rg_blocks st1 with
  | [] => if ndebug c then Undef EmptyBack else Abort
  | cur :: others =>
    obind (at_ (nb_data b) (to_size (i * 3))) (fun x =>
    obind (at_ (nb_data b) (to_size (i * 3 + 1))) (fun y =>
    obind (at_ (nb_data b) (to_size (i * 3 + 2))) (fun z =>
    Ok {| rg_blocks := push_node t x y z cur :: others;
          rg_dim := rg_dim st1; rg_tag := rg_tag st1 |})))
  end).

(** Line 65-67 *)
Definition set_count (b : NodeBlock) : NodeBlock :=
  {| nb_dim := nb_dim b; nb_tag := nb_tag b; nb_parametric := nb_parametric b;
     nb_num := zlen (nb_tags b); nb_tags := nb_tags b; nb_data := nb_data b |}.

(** regroup_nodes_into_blocks: load_msh_post_process.cpp:12-70.
    The reserve calls (35, 48, 49) and the push_backs ask for no more than what
    is already allocated for the input block and are not checked. *)
Definition regroup_nodes (c : cfg) (spec : MshSpec) : outcome MshSpec :=
  let n := nodes spec in
  let size := to_size (n_max n - n_min n + 1) in
  obind (can_hold c sz_size size (@nil Z)) (fun _ =>
  obind (ofold (mark_block size (n_min n)) (e_blocks (elements spec)) (fun _ => (0, 0))) (fun a =>
  obind (ofold (fun b st =>
           ofold (regroup_node c size (n_min n) a b) (iota (nb_num b)) st)
         (n_blocks n) {| rg_blocks := []; rg_dim := SIZE_MAX; rg_tag := SIZE_MAX |}) (fun st =>
  let blocks := map set_count (rev (rg_blocks st)) in
  Ok (set_nodes {| n_num_blocks := zlen blocks; n_num_nodes := n_num_nodes n;
                   n_min := n_min n; n_max := n_max n; n_blocks := blocks |} spec)))).

(** State of the element loop, lines 76-97 (last block first). *)
Record eregroup := { eg_blocks : list ElementBlock; eg_dim : Z; eg_tag : Z; eg_type : Z }.

(** Lines 80-97 for one block. *)
Definition regroup_element (b : ElementBlock) (st : eregroup) : outcome eregroup :=
  let st1 :=
    if negb (to_size (eb_dim b) =? eg_dim st) || negb (to_size (eb_tag b) =? eg_tag st)
       || negb (to_size (eb_type b) =? eg_type st) then
      {| eg_blocks := {| eb_dim := eb_dim b; eb_tag := eb_tag b; eb_type := eb_type b;
                         eb_num := 0; eb_data := [] |} :: eg_blocks st;
         eg_dim := to_size (eb_dim b); eg_tag := to_size (eb_tag b);
         eg_type := to_size (eb_type b) |}
    else st in
  match eg_blocks st1 with
  | [] => Undef EmptyBack
  | cur :: others =>
    Ok {| eg_blocks := {| eb_dim := eb_dim cur; eb_tag := eb_tag cur; eb_type := eb_type cur;
                          eb_num := to_size (eb_num cur + eb_num b);
                          eb_data := eb_data cur ++ eb_data b |} :: others;
          eg_dim := eg_dim st1; eg_tag := eg_tag st1; eg_type := eg_type st1 |}
  end.

(** regroup_elements_into_blocks: load_msh_post_process.cpp:72-101 *)
Definition regroup_elements (c : cfg) (spec : MshSpec) : outcome MshSpec :=
  let e := elements spec in
  obind (can_hold c sz_ElementBlock (e_num_blocks e) (@nil Z)) (fun _ =>
  obind (ofold regroup_element (e_blocks e)
           {| eg_blocks := []; eg_dim := 0; eg_tag := 0; eg_type := 0 |}) (fun st =>
  let blocks := rev (eg_blocks st) in
  Ok (set_elements {| e_num_blocks := zlen blocks; e_num_elements := e_num_elements e;
                      e_min := e_min e; e_max := e_max e; e_blocks := blocks |} spec))).

(** load_msh_post_process: load_msh_post_process.cpp:105-111 *)
Definition post_process (c : cfg) (spec : MshSpec) : outcome MshSpec :=
  if bytes_eqb (version (mesh_format spec)) v22s then
    obind (regroup_nodes c spec) (regroup_elements c)
  else Ok spec.
