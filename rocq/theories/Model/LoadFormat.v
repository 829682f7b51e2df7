(** src/load_msh_format.cpp *)

From Verif Require Export Model.IStream Model.MshSpec.

Definition v41s : bytes := str "4.1".
Definition v22s : bytes := str "2.2".

(** load_msh_format.cpp:29-32 *)
Definition data_size_unsupported (ds : Z) : exn :=
  UnsupportedFeature (str "MSH file (v4.1) requested data size of " ++ show_Z ds ++
    str " bytes, which is different than `size_t` (" ++ show_Z 8 ++ str " bytes)").

(** load_msh_format.cpp:40-41 *)
Definition endianness_unsupported (v : bytes) : exn :=
  UnsupportedFeature (str "MSH file (v" ++ v ++ str ") is encoded with unsupported endianness!").

(** load_msh_format.cpp:14-44 *)
Definition load_mesh_format (spec : MshSpec) : M MshSpec :=
  let f := mesh_format spec in
  v <- op (rd_token (version f)) ;;
  if negb (bytes_eqb v v22s) && negb (bytes_eqb v v41s) then throw (version_unsupported v) else
  ft <- op (rd_int (file_type f)) ;;
  ds <- op (rd_int (data_size f)) ;;
  (* line 28: sizeof(size_t) != data_size, the int converted to size_t *)
  if bytes_eqb v v41s && negb (to_size ds =? 8) then throw (data_size_unsupported ds) else
  (if negb (ft =? 0) then
     op eat_all ;;
     one <- op (rd_raw_int 0) ;;
     if negb (one =? 1) then throw (endianness_unsupported v) else ret tt
   else ret tt) ;;
  ret (set_format {| version := v; file_type := ft; data_size := ds |} spec).
