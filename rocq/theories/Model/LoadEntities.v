(** src/load_msh_entities.cpp and src/load_msh_physical_groups.cpp *)

From Verif Require Export Model.LoadFormat.

(** Reading [size_t num; in >> num; v.resize(num); for j: in >> v[j]] for an
    int vector, e.g. load_msh_entities.cpp:34-39. *)
Definition ints_ascii (c : cfg) (old : list Z) : M (list Z) :=
  k0 <- op (rd_size_opt None) ;;
  k <- use k0 ;;
  v0 <- lift (resize c sz_int 0 k old) ;;
  mapM (fun o => op (rd_int o)) v0.

(** Binary variant with its asserts, e.g. load_msh_entities.cpp:136-143. *)
Definition ints_binary (c : cfg) (old : list Z) : M (list Z) :=
  k0 <- op (rd_raw_size_opt None) ;;
  assert_good c ;;
  k <- use k0 ;;
  v0 <- lift (resize c sz_int 0 k old) ;;
  v <- rd_raw_array rd_raw_int v0 ;;
  assert_good c ;;
  ret v.

(** load_msh_entities.cpp:29-39 *)
Definition point_ascii (c : cfg) (p : PointEntity) : M PointEntity :=
  tag <- op (rd_int (pe_tag p)) ;;
  x <- op (rd_double (pe_x p)) ;;
  y <- op (rd_double (pe_y p)) ;;
  z <- op (rd_double (pe_z p)) ;;
  phys <- ints_ascii c (pe_phys p) ;;
  ret {| pe_tag := tag; pe_x := x; pe_y := y; pe_z := z; pe_phys := phys |}.

(** load_msh_entities.cpp:43-62 (curves), 66-85 (surfaces), 89-108 (volumes) *)
Definition entity_ascii (c : cfg) (e : Entity) : M Entity :=
  tag <- op (rd_int (en_tag e)) ;;
  x0 <- op (rd_double (en_min_x e)) ;;
  y0 <- op (rd_double (en_min_y e)) ;;
  z0 <- op (rd_double (en_min_z e)) ;;
  x1 <- op (rd_double (en_max_x e)) ;;
  y1 <- op (rd_double (en_max_y e)) ;;
  z1 <- op (rd_double (en_max_z e)) ;;
  phys <- ints_ascii c (en_phys e) ;;
  bnd <- ints_ascii c (en_bnd e) ;;
  ret {| en_tag := tag; en_min_x := x0; en_min_y := y0; en_min_z := z0;
         en_max_x := x1; en_max_y := y1; en_max_z := z1; en_phys := phys; en_bnd := bnd |}.

(** load_msh_entities.cpp:131-143 *)
Definition point_binary (c : cfg) (p : PointEntity) : M PointEntity :=
  tag <- op (rd_raw_int (pe_tag p)) ;;
  x <- op (rd_raw_double (pe_x p)) ;;
  y <- op (rd_raw_double (pe_y p)) ;;
  z <- op (rd_raw_double (pe_z p)) ;;
  phys <- ints_binary c (pe_phys p) ;;
  ret {| pe_tag := tag; pe_x := x; pe_y := y; pe_z := z; pe_phys := phys |}.

(** load_msh_entities.cpp:147-171 (curves), 175-199 (surfaces), 203-227 (volumes) *)
Definition entity_binary (c : cfg) (e : Entity) : M Entity :=
  tag <- op (rd_raw_int (en_tag e)) ;;
  x0 <- op (rd_raw_double (en_min_x e)) ;;
  y0 <- op (rd_raw_double (en_min_y e)) ;;
  z0 <- op (rd_raw_double (en_min_z e)) ;;
  x1 <- op (rd_raw_double (en_max_x e)) ;;
  y1 <- op (rd_raw_double (en_max_y e)) ;;
  z1 <- op (rd_raw_double (en_max_z e)) ;;
  phys <- ints_binary c (en_phys e) ;;
  bnd <- ints_binary c (en_bnd e) ;;
  ret {| en_tag := tag; en_min_x := x0; en_min_y := y0; en_min_z := z0;
         en_max_x := x1; en_max_y := y1; en_max_z := z1; en_phys := phys; en_bnd := bnd |}.

(** The four resizes: load_msh_entities.cpp:22-26, 124-128 *)
Definition resize_entities (c : cfg) (np nc ns nv : option Z) (en : Entities) : M Entities :=
  np' <- use np ;;
  p <- lift (resize c sz_PointEntity pe_default np' (points en)) ;;
  nc' <- use nc ;;
  cu <- lift (resize c sz_Entity en_default nc' (curves_e en)) ;;
  ns' <- use ns ;;
  su <- lift (resize c sz_Entity en_default ns' (surfaces_e en)) ;;
  nv' <- use nv ;;
  vo <- lift (resize c sz_Entity en_default nv' (volumes_e en)) ;;
  ret {| points := p; curves_e := cu; surfaces_e := su; volumes_e := vo |}.

(** v41::load_entities_ascii: load_msh_entities.cpp:13-112 *)
Definition v41_load_entities_ascii (c : cfg) (en : Entities) : M Entities :=
  np <- op (rd_size_opt None) ;;
  nc <- op (rd_size_opt None) ;;
  ns <- op (rd_size_opt None) ;;
  nv <- op (rd_size_opt None) ;;
  assert_good c ;;
  en0 <- resize_entities c np nc ns nv en ;;
  p <- mapM (point_ascii c) (points en0) ;;
  cu <- mapM (entity_ascii c) (curves_e en0) ;;
  su <- mapM (entity_ascii c) (surfaces_e en0) ;;
  vo <- mapM (entity_ascii c) (volumes_e en0) ;;
  assert_good c ;;
  ret {| points := p; curves_e := cu; surfaces_e := su; volumes_e := vo |}.

(** v41::load_entities_binary: load_msh_entities.cpp:114-229 *)
Definition v41_load_entities_binary (c : cfg) (en : Entities) : M Entities :=
  op eat1 ;;
  np <- op (rd_raw_size_opt None) ;;
  nc <- op (rd_raw_size_opt None) ;;
  ns <- op (rd_raw_size_opt None) ;;
  nv <- op (rd_raw_size_opt None) ;;
  assert_good c ;;
  en0 <- resize_entities c np nc ns nv en ;;
  p <- mapM (point_binary c) (points en0) ;;
  cu <- mapM (entity_binary c) (curves_e en0) ;;
  su <- mapM (entity_binary c) (surfaces_e en0) ;;
  vo <- mapM (entity_binary c) (volumes_e en0) ;;
  ret {| points := p; curves_e := cu; surfaces_e := su; volumes_e := vo |}.

(** load_entities: load_msh_entities.cpp:233-245 (an unknown version does nothing) *)
Definition load_entities (c : cfg) (spec : MshSpec) : M MshSpec :=
  let v := version (mesh_format spec) in
  if bytes_eqb v v41s then
    en <- (if file_type (mesh_format spec) =? 0
           then v41_load_entities_ascii c (entities spec)
           else v41_load_entities_binary c (entities spec)) ;;
    ret (set_entities en spec)
  else if bytes_eqb v v22s then throw (InvalidFormat (str "$Entities section not supported by MSH version 2.2"))
  else ret spec.

(** One group: load_msh_physical_groups.cpp:19-22 *)
Definition load_group (g : PhysicalGroup) : M PhysicalGroup :=
  d <- op (rd_int (pg_dim g)) ;;
  t <- op (rd_int (pg_tag g)) ;;
  nm <- op (rd_quoted (pg_name g)) ;;
  ret {| pg_dim := d; pg_tag := t; pg_name := nm |}.

(** load_physical_groups: load_msh_physical_groups.cpp:12-25 *)
Definition load_physical_groups (c : cfg) (spec : MshSpec) : M MshSpec :=
  k0 <- op (rd_int_opt None) ;;
  k <- use k0 ;;
  gs0 <- lift (resize c sz_PhysicalGroup pg_default (to_size k) (physical_groups spec)) ;;
  gs <- mapM load_group gs0 ;;
  assert_good c ;;
  ret (set_physical_groups gs spec).
