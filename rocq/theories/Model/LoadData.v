(** src/load_msh_data.cpp *)

From Verif Require Export Model.LoadNodes.

(** load_data_header: load_msh_data.cpp:16-38; the header is a fresh one
    (emplace_back at lines 142, 150, 158). *)
Definition load_data_header (c : cfg) : M DataHeader :=
  ns0 <- op (rd_size_opt None) ;;
  ns <- use ns0 ;;
  st0 <- lift (resize c sz_string ([] : bytes) ns []) ;;
  st <- mapM (fun o => op (rd_quoted o)) st0 ;;
  nr0 <- op (rd_size_opt None) ;;
  nr <- use nr0 ;;
  rt0 <- lift (resize c sz_double 0 nr []) ;;
  rt <- mapM (fun o => op (rd_double o)) rt0 ;;
  ni0 <- op (rd_size_opt None) ;;
  ni <- use ni0 ;;
  it0 <- lift (resize c sz_int 0 ni []) ;;
  it <- mapM (fun o => op (rd_int o)) it0 ;;
  assert_good c ;;
  ret {| string_tags := st; real_tags := rt; int_tags := it |}.

(** v41::load_data_entry and v22::load_data_entry (load_msh_data.cpp:41-60,
    64-80).  They differ only in how num_nodes_per_element is initialised:
    4.1 reads into the entry's field (0 at first), 2.2 into an uninitialised
    local. *)
Definition entry_binary (c : cfg) (is22 : bool) (fields : Z) (end_ : bool) (e : DataEntry)
  : M DataEntry :=
  t0 <- op (rd_raw_int_opt None) ;;
  t <- use t0 ;;
  npe <- (if end_ then
            if is22 then k0 <- op (rd_raw_int_opt None) ;; use k0
            else op (rd_raw_int (de_npe e))
          else ret (de_npe e)) ;;
  data0 <- lift (resize c sz_double 0
                   (if end_ then to_size (fields * to_size npe) else fields) (de_data e)) ;;
  data <- rd_raw_array rd_raw_double data0 ;;
  ret {| de_tag := to_size t; de_npe := npe; de_data := data |}.

(** load_msh_data.cpp:114-129 *)
Definition entry_ascii (c : cfg) (fields : Z) (end_ : bool) (e : DataEntry) : M DataEntry :=
  t <- op (rd_size (de_tag e)) ;;
  if end_ then
    npe <- op (rd_int (de_npe e)) ;;
    data0 <- lift (resize c sz_double 0 (to_size (fields * to_size npe)) (de_data e)) ;;
    data <- fill (fields * to_size npe) (fun o => op (rd_double o)) data0 ;;
    ret {| de_tag := t; de_npe := npe; de_data := data |}
  else
    data0 <- lift (resize c sz_double 0 fields (de_data e)) ;;
    data <- mapM (fun o => op (rd_double o)) data0 ;;
    ret {| de_tag := t; de_npe := de_npe e; de_data := data |}.

(** load_msh_data.cpp:92 *)
Definition few_int_tags : exn := InvalidFormat (str "Data requires at least 3 int tags.").

(** load_data: load_msh_data.cpp:83-133 *)
Definition load_data (c : cfg) (v : bytes) (is_binary end_ : bool) : M Data :=
  h <- load_data_header c ;;
  match int_tags h with
  | _ :: i1 :: i2 :: _ =>
    let fields := to_size i1 in
    let num := to_size i2 in
    entries0 <- lift (resize c sz_DataEntry de_default num []) ;;
    entries <-
      (if is_binary then
         op eat1 ;;
         if bytes_eqb v v41s then mapM (entry_binary c false fields end_) entries0
         else if bytes_eqb v v22s then mapM (entry_binary c true fields end_) entries0
         else throw (data_version_unsupported v)
       else mapM (entry_ascii c fields end_) entries0) ;;
    assert_good c ;;
    ret {| d_header := h; d_entries := entries |}
  | _ => throw few_int_tags
  end.

(** load_node_data: load_msh_data.cpp:138-144 *)
Definition load_node_data (c : cfg) (spec : MshSpec) : M MshSpec :=
  d <- load_data c (version (mesh_format spec)) (0 <? file_type (mesh_format spec)) false ;;
  ret (set_node_data (node_data spec ++ [d]) spec).

(** load_element_data: load_msh_data.cpp:146-152 *)
Definition load_element_data (c : cfg) (spec : MshSpec) : M MshSpec :=
  d <- load_data c (version (mesh_format spec)) (0 <? file_type (mesh_format spec)) false ;;
  ret (set_element_data (element_data spec ++ [d]) spec).

(** load_element_node_data: load_msh_data.cpp:154-160 *)
Definition load_element_node_data (c : cfg) (spec : MshSpec) : M MshSpec :=
  d <- load_data c (version (mesh_format spec)) (0 <? file_type (mesh_format spec)) true ;;
  ret (set_element_node_data (element_node_data spec ++ [d]) spec).
