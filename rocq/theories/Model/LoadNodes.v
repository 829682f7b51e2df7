(** src/load_msh_nodes.cpp *)

From Verif Require Export Model.LoadFormat.

(** 3 + ((parametric == 1) ? entity_dim : 0) converted to size_t; the int
    addition overflows for entity_dim > INT_MAX - 3.
    load_msh_nodes.cpp:41-42, 76-77; save_msh_nodes.cpp:26-27, 59-60, 78-79, 95-96. *)
Definition entries_per_node (parametric dim : Z) : outcome Z :=
  let k := 3 + (if parametric =? 1 then dim else 0) in
  if INT_MAX <? k then Undef SignedOverflow else Ok (to_size k).

(** A doubly indexed fill of a vector of [zlen v] elements by loops covering
    [cnt] consecutive indices from 0: in bounds iff cnt <= size.  Used where the
    size is cnt modulo 2^64: when they differ, cnt > size, and the loop writes
    past the end (no read in it can throw). *)
Definition fill {A} (cnt : Z) (f : A -> M A) (v : list A) : M (list A) :=
  if cnt =? zlen v then mapM f v else undef OutOfBounds.

(** v41::load_nodes_ascii, one block: load_msh_nodes.cpp:27-49 *)
Definition v41_node_block_ascii (c : cfg) (b : NodeBlock) : M NodeBlock :=
  dim <- op (rd_int (nb_dim b)) ;;
  tag <- op (rd_int (nb_tag b)) ;;
  par <- op (rd_int (nb_parametric b)) ;;
  num <- op (rd_size (nb_num b)) ;;
  assert_good c ;;
  tags0 <- lift (resize c sz_size 0 num (nb_tags b)) ;;
  tags <- mapM (fun o => op (rd_size o)) tags0 ;;
  assert_good c ;;
  massert c ((0 <=? par) && (par <=? 3)) ;;
  epn <- lift (entries_per_node par dim) ;;
  data0 <- lift (resize c sz_double 0 (to_size (num * epn)) (nb_data b)) ;;
  data <- fill (num * epn) (fun o => op (rd_double o)) data0 ;;
  assert_good c ;;
  ret {| nb_dim := dim; nb_tag := tag; nb_parametric := par; nb_num := num;
         nb_tags := tags; nb_data := data |}.

(** v41::load_nodes_ascii: load_msh_nodes.cpp:17-51 *)
Definition v41_load_nodes_ascii (c : cfg) (n : Nodes) : M Nodes :=
  nblk <- op (rd_size (n_num_blocks n)) ;;
  nn <- op (rd_size (n_num_nodes n)) ;;
  mn <- op (rd_size (n_min n)) ;;
  mx <- op (rd_size (n_max n)) ;;
  assert_good c ;;
  blocks0 <- lift (resize c sz_NodeBlock nb_default nblk (n_blocks n)) ;;
  blocks <- mapM (v41_node_block_ascii c) blocks0 ;;
  ret {| n_num_blocks := nblk; n_num_nodes := nn; n_min := mn; n_max := mx;
         n_blocks := blocks |}.

(** v41::load_nodes_binary, one block: load_msh_nodes.cpp:64-82; the byte counts
    are computed in size_t. *)
Definition v41_node_block_binary (c : cfg) (b : NodeBlock) : M NodeBlock :=
  dim <- op (rd_raw_int (nb_dim b)) ;;
  tag <- op (rd_raw_int (nb_tag b)) ;;
  par <- op (rd_raw_int (nb_parametric b)) ;;
  num <- op (rd_raw_size (nb_num b)) ;;
  assert_good c ;;
  tags0 <- lift (resize c sz_size 0 num (nb_tags b)) ;;
  tags <- rd_raw_into sz_size (to_size (sz_size * num)) rd_raw_size tags0 ;;
  assert_good c ;;
  epn <- lift (entries_per_node par dim) ;;
  data0 <- lift (resize c sz_double 0 (to_size (num * epn)) (nb_data b)) ;;
  data <- rd_raw_into sz_double (to_size (to_size (sz_double * num) * epn)) rd_raw_double data0 ;;
  assert_good c ;;
  ret {| nb_dim := dim; nb_tag := tag; nb_parametric := par; nb_num := num;
         nb_tags := tags; nb_data := data |}.

(** v41::load_nodes_binary: load_msh_nodes.cpp:53-84 *)
Definition v41_load_nodes_binary (c : cfg) (n : Nodes) : M Nodes :=
  op eat1 ;;
  nblk <- op (rd_raw_size (n_num_blocks n)) ;;
  nn <- op (rd_raw_size (n_num_nodes n)) ;;
  mn <- op (rd_raw_size (n_min n)) ;;
  mx <- op (rd_raw_size (n_max n)) ;;
  assert_good c ;;
  blocks0 <- lift (resize c sz_NodeBlock nb_default nblk (n_blocks n)) ;;
  blocks <- mapM (v41_node_block_binary c) blocks0 ;;
  ret {| n_num_blocks := nblk; n_num_nodes := nn; n_min := mn; n_max := mx;
         n_blocks := blocks |}.

(** One line of a 2.2 ASCII $Nodes section: load_msh_nodes.cpp:107-111.
    tags[i] and data[3i..3i+2] start value-initialised (fresh block). *)
Definition v22_node_ascii (c : cfg) (_ : unit) : M (Z * list dbl) :=
  t <- op (rd_size 0) ;;
  x <- op (rd_double 0) ;;
  y <- op (rd_double 0) ;;
  z <- op (rd_double 0) ;;
  assert_good c ;;
  ret (t, [x; y; z]).

(** *std::min_element / *std::max_element on a non-empty vector combined with
    the running minimum: load_msh_nodes.cpp:114-119, 147-152. *)
Definition fold_min (init : Z) (l : list Z) : Z := fold_left Z.min l init.
Definition fold_max (init : Z) (l : list Z) : Z := fold_left Z.max l init.

(** v22 tail: append the block, counts, min and max. *)
Definition v22_add_block (n : Nodes) (num : Z) (rows : list (Z * list dbl))
  (blocks0 : list NodeBlock) : Nodes :=
  let tags := map fst rows in
  {| n_num_blocks := to_size (n_num_blocks n + 1);
     n_num_nodes := to_size (n_num_nodes n + num);
     n_min := if 0 <? num then fold_min (n_min n) tags else n_min n;
     n_max := if 0 <? num then fold_max (n_max n) tags else n_max n;
     n_blocks := blocks0 ++
       [{| nb_dim := 0; nb_tag := 0; nb_parametric := 0; nb_num := num;
           nb_tags := tags; nb_data := List.concat (map snd rows) |}] |}.

(** The two resizes of a fresh block: load_msh_nodes.cpp:104-105, 136-137.
    3 * num cannot wrap once tags.resize(num) succeeded. *)
Definition v22_resizes (c : cfg) (num : Z) : outcome unit :=
  obind (can_hold c sz_size num (@nil Z)) (fun _ =>
  can_hold c sz_double (to_size (num * 3)) (@nil Z)).

(** v22::load_nodes_ascii: load_msh_nodes.cpp:90-120 *)
Definition v22_load_nodes_ascii (c : cfg) (n : Nodes) : M Nodes :=
  lift (can_hold c sz_NodeBlock (zlen (n_blocks n) + 1) (n_blocks n)) ;;
  num <- op (rd_size 0) ;;
  assert_good c ;;
  lift (v22_resizes c num) ;;
  rows <- mapM (v22_node_ascii c) (repeat tt (Z.to_nat num)) ;;
  ret (v22_add_block n num rows (n_blocks n)).

(** One record of a 2.2 binary $Nodes section: load_msh_nodes.cpp:140-144;
    [int tag;] is uninitialised. *)
Definition v22_node_binary (c : cfg) (_ : unit) : M (Z * list dbl) :=
  assert_good c ;;
  t0 <- op (rd_raw_int_opt None) ;;
  t <- use t0 ;;
  xyz <- rd_raw_array rd_raw_double [0; 0; 0] ;;
  ret (to_size t, xyz).

(** v22::load_nodes_binary: load_msh_nodes.cpp:122-153 *)
Definition v22_load_nodes_binary (c : cfg) (n : Nodes) : M Nodes :=
  lift (can_hold c sz_NodeBlock (zlen (n_blocks n) + 1) (n_blocks n)) ;;
  num <- op (rd_size 0) ;;
  assert_good c ;;
  lift (v22_resizes c num) ;;
  op eat1 ;;
  rows <- mapM (v22_node_binary c) (repeat tt (Z.to_nat num)) ;;
  ret (v22_add_block n num rows (n_blocks n)).

(** load_nodes: load_msh_nodes.cpp:157-181 *)
Definition load_nodes (c : cfg) (spec : MshSpec) : M MshSpec :=
  let n0 := nodes spec in
  let n := match n_blocks n0 with
           | [] => {| n_num_blocks := n_num_blocks n0; n_num_nodes := 0;
                      n_min := SIZE_MAX; n_max := 0; n_blocks := [] |}
           | _ => n0
           end in
  let v := version (mesh_format spec) in
  let is_ascii := file_type (mesh_format spec) =? 0 in
  n' <- (if bytes_eqb v v41s then
           if is_ascii then v41_load_nodes_ascii c n else v41_load_nodes_binary c n
         else if bytes_eqb v v22s then
           if is_ascii then v22_load_nodes_ascii c n else v22_load_nodes_binary c n
         else throw (version_unsupported v)) ;;
  ret (set_nodes n' spec).
