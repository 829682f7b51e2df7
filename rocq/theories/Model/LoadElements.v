(** src/load_msh_elements.cpp *)

From Verif Require Export Model.LoadNodes Model.Elem.

(** v41::load_elements_ascii, one block: load_msh_elements.cpp:34-48 *)
Definition v41_element_block_ascii (c : cfg) (b : ElementBlock) : M ElementBlock :=
  dim <- op (rd_int (eb_dim b)) ;;
  tag <- op (rd_int (eb_tag b)) ;;
  typ <- op (rd_int (eb_type b)) ;;
  num <- op (rd_size (eb_num b)) ;;
  n <- lift (nodes_per_element typ) ;;
  data0 <- lift (resize c sz_size 0 (to_size (num * (n + 1))) (eb_data b)) ;;
  data <- fill (num * (n + 1)) (fun o => op (rd_size o)) data0 ;;
  assert_good c ;;
  ret {| eb_dim := dim; eb_tag := tag; eb_type := typ; eb_num := num; eb_data := data |}.

(** v41::load_elements_ascii: load_msh_elements.cpp:23-50 *)
Definition v41_load_elements_ascii (c : cfg) (e : Elements) : M Elements :=
  nblk <- op (rd_size (e_num_blocks e)) ;;
  ne <- op (rd_size (e_num_elements e)) ;;
  mn <- op (rd_size (e_min e)) ;;
  mx <- op (rd_size (e_max e)) ;;
  assert_good c ;;
  blocks0 <- lift (resize c sz_ElementBlock eb_default nblk (e_blocks e)) ;;
  blocks <- mapM (v41_element_block_ascii c) blocks0 ;;
  ret {| e_num_blocks := nblk; e_num_elements := ne; e_min := mn; e_max := mx;
         e_blocks := blocks |}.

(** v41::load_elements_binary, one block: load_msh_elements.cpp:64-75 *)
Definition v41_element_block_binary (c : cfg) (b : ElementBlock) : M ElementBlock :=
  dim <- op (rd_raw_int (eb_dim b)) ;;
  tag <- op (rd_raw_int (eb_tag b)) ;;
  typ <- op (rd_raw_int (eb_type b)) ;;
  num <- op (rd_raw_size (eb_num b)) ;;
  n <- lift (nodes_per_element typ) ;;
  data0 <- lift (resize c sz_size 0 (to_size (num * (n + 1))) (eb_data b)) ;;
  data <- rd_raw_array rd_raw_size data0 ;;
  assert_good c ;;
  ret {| eb_dim := dim; eb_tag := tag; eb_type := typ; eb_num := num; eb_data := data |}.

(** v41::load_elements_binary: load_msh_elements.cpp:52-77 *)
Definition v41_load_elements_binary (c : cfg) (e : Elements) : M Elements :=
  op eat1 ;;
  nblk <- op (rd_raw_size (e_num_blocks e)) ;;
  ne <- op (rd_raw_size (e_num_elements e)) ;;
  mn <- op (rd_raw_size (e_min e)) ;;
  mx <- op (rd_raw_size (e_max e)) ;;
  assert_good c ;;
  blocks0 <- lift (resize c sz_ElementBlock eb_default nblk (e_blocks e)) ;;
  blocks <- mapM (v41_element_block_binary c) blocks0 ;;
  ret {| e_num_blocks := nblk; e_num_elements := ne; e_min := mn; e_max := mx;
         e_blocks := blocks |}.

(** std::map<int, std::set<int>>: association list sorted by key, each value a
    sorted list. *)
Definition pmap := list (Z * list Z).

Fixpoint set_insert (x : Z) (l : list Z) : list Z :=
  match l with
  | [] => [x]
  | y :: l' => if x <? y then x :: l else if x =? y then l else y :: set_insert x l'
  end.

(** find / operator[] = {tag} / it->second.insert:
    load_msh_elements.cpp:145-150, 216-221 *)
Fixpoint map_add (k p : Z) (m : pmap) : pmap :=
  match m with
  | [] => [(k, [p])]
  | (k', ps) :: m' =>
    if k <? k' then (k, [p]) :: m
    else if k =? k' then (k', set_insert p ps) :: m'
    else (k', ps) :: map_add k p m'
  end.

(** std::array<std::map<int, std::set<int>>, 4> *)
Definition pmaps := list pmap.
Definition pmaps_empty : pmaps := [[]; []; []; []].

Fixpoint upd_nth {A} (l : list A) (i : nat) (f : A -> A) : list A :=
  match l, i with
  | [], _ => []
  | x :: l', O => f x :: l'
  | x :: l', S i' => x :: upd_nth l' i' f
  end.

(** entity_tag and map update from the tag list:
    load_msh_elements.cpp:139-156, 210-227.  [dim] is 0..3. *)
Definition classify (dim : Z) (tags : list Z) (pm : pmaps) : Z * pmaps :=
  match tags with
  | t0 :: t1 :: _ => (t1, upd_nth pm (Z.to_nat dim) (map_add t1 t0))
  | [t0] => (t0, pm)
  | [] => (1, pm)
  end.

(** create_entities for PointEntity: load_msh_elements.cpp:83-94
    (allocation failure of the push_backs is not modelled). *)
Definition create_points (m : pmap) (old : list PointEntity) : list PointEntity :=
  old ++ map (fun kp => {| pe_tag := fst kp; pe_x := 0; pe_y := 0; pe_z := 0;
                           pe_phys := snd kp |}) m.

(** create_entities for Curve/Surface/VolumeEntity. *)
Definition create_entities (m : pmap) (old : list Entity) : list Entity :=
  old ++ map (fun kp => {| en_tag := fst kp;
                           en_min_x := 0; en_min_y := 0; en_min_z := 0;
                           en_max_x := 0; en_max_y := 0; en_max_z := 0;
                           en_phys := snd kp; en_bnd := [] |}) m.

(** load_msh_elements.cpp:166-169, 247-250 *)
Definition create_all (pm : pmaps) (en : Entities) : Entities :=
  {| points := create_points (nth 0 pm []) (points en);
     curves_e := create_entities (nth 1 pm []) (curves_e en);
     surfaces_e := create_entities (nth 2 pm []) (surfaces_e en);
     volumes_e := create_entities (nth 3 pm []) (volumes_e en) |}.

(** Block of one element: load_msh_elements.cpp:135-163, 206-234 *)
Definition one_element (dim etag typ id : Z) (ids : list Z) : ElementBlock :=
  {| eb_dim := dim; eb_tag := etag; eb_type := typ; eb_num := 1;
     eb_data := to_size id :: map to_size ids |}.

(** Variables living across the iterations of v22::load_elements_ascii:
    element_num, element_type, num_tags (uninitialised at first), tags,
    node_ids, min/max tag, blocks, maps.  load_msh_elements.cpp:108-113 *)
Record va := {
  va_num : option Z; va_type : option Z; va_ntags : option Z;
  va_tags : list Z; va_ids : list Z;
  va_min : Z; va_max : Z; va_blocks : list ElementBlock; va_pm : pmaps }.

(** One iteration: load_msh_elements.cpp:115-164 *)
Definition v22_element_ascii (c : cfg) (st : va) : M va :=
  num0 <- op (rd_int_opt (va_num st)) ;;
  typ0 <- op (rd_int_opt (va_type st)) ;;
  nt0 <- op (rd_int_opt (va_ntags st)) ;;
  nt <- use nt0 ;;
  tags0 <- lift (resize c sz_int 0 (to_size nt) (va_tags st)) ;;
  tags <- mapM (fun o => op (rd_int o)) tags0 ;;
  typ <- use typ0 ;;
  n <- lift (nodes_per_element typ) ;;
  ids0 <- lift (resize c sz_int 0 n (va_ids st)) ;;
  ids <- mapM (fun o => op (rd_int o)) ids0 ;;
  num <- use num0 ;;
  dim <- lift (get_element_dim typ) ;;
  let (etag, pm) := classify dim tags (va_pm st) in
  blocks <- lift (emplace_back c sz_ElementBlock (one_element dim etag typ num ids)
                    (va_blocks st)) ;;
  ret {| va_num := Some num; va_type := Some typ; va_ntags := Some nt;
         va_tags := tags; va_ids := ids;
         va_min := Z.min (va_min st) (to_size num);
         va_max := Z.max (va_max st) (to_size num);
         va_blocks := blocks; va_pm := pm |}.

(** n iterations of a loop body. *)
Fixpoint iterM {S} (n : nat) (f : S -> M S) (s : S) : M S :=
  match n with
  | O => ret s
  | S n' => s' <- f s ;; iterM n' f s'
  end.

(** v22::load_elements_ascii: load_msh_elements.cpp:97-170 *)
Definition v22_load_elements_ascii (c : cfg) (e : Elements) (en : Entities)
  : M (Elements * Entities) :=
  ne0 <- op (rd_size_opt None) ;;
  ne <- use ne0 ;;
  st <- iterM (Z.to_nat ne) (v22_element_ascii c)
          {| va_num := None; va_type := None; va_ntags := None; va_tags := []; va_ids := [];
             va_min := e_min e; va_max := e_max e; va_blocks := e_blocks e;
             va_pm := pmaps_empty |} ;;
  ret ({| e_num_blocks := to_size (e_num_blocks e + ne);
          e_num_elements := to_size (e_num_elements e + ne);
          e_min := va_min st; e_max := va_max st; e_blocks := va_blocks st |},
       create_all (va_pm st) en).

(** Variables of v22::load_elements_binary: load_msh_elements.cpp:179-184 *)
Record vb := {
  vb_tags : list Z; vb_ids : list Z; vb_min : Z; vb_max : Z; vb_done : Z;
  vb_blocks : list ElementBlock; vb_pm : pmaps }.

(** One iteration of the inner loop, [id0] being element_id:
    load_msh_elements.cpp:199-239 *)
Definition v22_element_binary (c : cfg) (typ ntags : Z) (N : Z) (s : option Z * vb) : M (option Z * vb) :=
  let (id0, st) := s in
  id1 <- op (rd_raw_int_opt id0) ;;
  (* line 200: 4 * num_tags in int *)
  (if INT_MAX <? 4 * ntags then undef SignedOverflow else ret tt) ;;
  tags <- rd_raw_array rd_raw_int (vb_tags st) ;;
  ids <- rd_raw_array rd_raw_int (vb_ids st) ;;
  id <- use id1 ;;
  dim <- lift (get_element_dim typ) ;;
  let (etag, pm) := classify dim tags (vb_pm st) in
  blocks <- lift (emplace_back c sz_ElementBlock (one_element dim etag typ id ids)
                    (vb_blocks st)) ;;
  let done := vb_done st + 1 in
  if N <? done then throw (InvalidFormat (str "Inconsistent element count detected!")) else
  ret (Some id,
       {| vb_tags := tags; vb_ids := ids;
          vb_min := Z.min (vb_min st) id; vb_max := Z.max (vb_max st) id;
          vb_done := done;
          vb_blocks := blocks; vb_pm := pm |}).

(** The outer while loop: load_msh_elements.cpp:185-241.  The inner loop runs
    num_elements_in_block (converted to size_t) times but throws once more than
    N elements were processed, so at most N - done + 1 iterations matter. *)
Fixpoint v22_elements_loop (fuel : nat) (c : cfg) (N : Z) (st : vb) : M vb :=
  match fuel with
  | O => fun _ => Diverge
  | S f =>
    if vb_done st =? N then ret st else
    typ0 <- op (rd_raw_int_opt None) ;;
    nb0 <- op (rd_raw_int_opt None) ;;
    nt0 <- op (rd_raw_int_opt None) ;;
    nt <- use nt0 ;;
    tags <- lift (resize c sz_int 0 (to_size nt) (vb_tags st)) ;;
    typ <- use typ0 ;;
    n <- lift (nodes_per_element typ) ;;
    ids <- lift (resize c sz_int 0 n (vb_ids st)) ;;
    nb <- use nb0 ;;
    let st1 := {| vb_tags := tags; vb_ids := ids; vb_min := vb_min st; vb_max := vb_max st;
                  vb_done := vb_done st; vb_blocks := vb_blocks st; vb_pm := vb_pm st |} in
    r <- iterM (Z.to_nat (Z.min (to_size nb) (N - vb_done st + 1)))
           (v22_element_binary c typ nt N) (None, st1) ;;
    v22_elements_loop f c N (snd r)
  end.

(** v22::load_elements_binary: load_msh_elements.cpp:172-251 *)
Definition v22_load_elements_binary (c : cfg) (e : Elements) (en : Entities)
  : M (Elements * Entities) :=
  ne <- op (rd_size (e_num_elements e)) ;;
  lift (can_hold c sz_ElementBlock ne (e_blocks e)) ;;
  op eat1 ;;
  st <- (fun s => v22_elements_loop (S (List.length (rest s))) c ne
          {| vb_tags := []; vb_ids := []; vb_min := INT_MAX; vb_max := 0; vb_done := 0;
             vb_blocks := e_blocks e; vb_pm := pmaps_empty |} s) ;;
  ret ({| e_num_blocks := zlen (vb_blocks st);
          e_num_elements := ne;
          e_min := Z.min (e_min e) (to_size (vb_min st));
          e_max := Z.max (e_max e) (to_size (vb_max st));
          e_blocks := vb_blocks st |},
       create_all (vb_pm st) en).

(** load_elements: load_msh_elements.cpp:255-279 *)
Definition load_elements (c : cfg) (spec : MshSpec) : M MshSpec :=
  let e0 := elements spec in
  let e := match e_blocks e0 with
           | [] => {| e_num_blocks := e_num_blocks e0; e_num_elements := e_num_elements e0;
                      e_min := SIZE_MAX; e_max := 0; e_blocks := [] |}
           | _ => e0
           end in
  let v := version (mesh_format spec) in
  let is_ascii := file_type (mesh_format spec) =? 0 in
  if bytes_eqb v v41s then
    e' <- (if is_ascii then v41_load_elements_ascii c e else v41_load_elements_binary c e) ;;
    ret (set_elements e' spec)
  else if bytes_eqb v v22s then
    r <- (if is_ascii then v22_load_elements_ascii c e (entities spec)
          else v22_load_elements_binary c e (entities spec)) ;;
    ret (set_entities (snd r) (set_elements (fst r) spec))
  else throw (version_unsupported v).
