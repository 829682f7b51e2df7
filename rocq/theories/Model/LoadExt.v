(** src/load_msh_nanospline_format.h, load_msh_curves.cpp, load_msh_patches.cpp *)

From Verif Require Export Model.LoadFormat.

(** load_msh_nanospline_format.h:10-13 (compiled in all configurations) *)
Definition load_nanospline_format (spec : MshSpec) : M MshSpec :=
  v <- op (rd_token (ns_version spec)) ;;
  ret (set_ns_version v spec).

(** Number of doubles of a curve: load_msh_curves.cpp:25-26, 53-54;
    save_msh_curves.cpp:26-27, 62-63 *)
Definition curve_entries (ncp nknots w : Z) : Z :=
  to_size (to_size (ncp * (if 0 <? w then 4 else 3)) + nknots).

(** Number of doubles of a patch: load_msh_patches.cpp:27-29, 58-60;
    save_msh_patches.cpp:27-29, 68-70 *)
Definition patch_entries (ncp nu nv w : Z) : Z :=
  to_size (to_size (to_size (ncp * (if 0 <? w then 4 else 3)) + nu) + nv).

(** One curve, ASCII (load_msh_curves.cpp:17-30) or binary (44-56). *)
Definition load_curve (c : cfg) (ascii : bool) (k : Curve) : M Curve :=
  tag <- op (rd_size (cv_tag k)) ;;
  typ <- op (rd_size (cv_type k)) ;;
  deg <- op (rd_size (cv_degree k)) ;;
  ncp <- op (rd_size (cv_ncp k)) ;;
  nkn <- op (rd_size (cv_nknots k)) ;;
  w <- op (rd_size (cv_weights k)) ;;
  (if ascii then ret tt else op eat1) ;;
  data0 <- lift (resize c sz_double 0 (curve_entries ncp nkn w) (cv_data k)) ;;
  data <- (if ascii then mapM (fun o => op (rd_double o)) data0
           else rd_raw_array rd_raw_double data0) ;;
  ret {| cv_tag := tag; cv_type := typ; cv_degree := deg; cv_ncp := ncp; cv_nknots := nkn;
         cv_weights := w; cv_data := data |}.

(** load_curves: load_msh_curves.cpp:8-71; empty bodies without the extension *)
Definition load_curves (c : cfg) (spec : MshSpec) : M MshSpec :=
  if nanospline c then
    k0 <- op (rd_size_opt None) ;;
    k <- use k0 ;;
    cs0 <- lift (resize c sz_Curve cv_default k (curves spec)) ;;
    cs <- mapM (load_curve c (file_type (mesh_format spec) =? 0)) cs0 ;;
    ret (set_curves cs spec)
  else ret spec.

(** One patch, ASCII (load_msh_patches.cpp:17-34) or binary (48-65). *)
Definition load_patch (c : cfg) (ascii : bool) (k : Patch) : M Patch :=
  tag <- op (rd_size (pt_tag k)) ;;
  typ <- op (rd_size (pt_type k)) ;;
  du <- op (rd_size (pt_degu k)) ;;
  dv <- op (rd_size (pt_degv k)) ;;
  ncp <- op (rd_size (pt_ncp k)) ;;
  nu <- op (rd_size (pt_nu k)) ;;
  nv <- op (rd_size (pt_nv k)) ;;
  w <- op (rd_size (pt_weights k)) ;;
  data0 <- lift (resize c sz_double 0 (patch_entries ncp nu nv w) (pt_data k)) ;;
  data <- (if ascii then mapM (fun o => op (rd_double o)) data0
           else op eat1 ;; rd_raw_array rd_raw_double data0) ;;
  ret {| pt_tag := tag; pt_type := typ; pt_degu := du; pt_degv := dv; pt_ncp := ncp;
         pt_nu := nu; pt_nv := nv; pt_weights := w; pt_data := data |}.

(** load_patches: load_msh_patches.cpp:8-80 *)
Definition load_patches (c : cfg) (spec : MshSpec) : M MshSpec :=
  if nanospline c then
    k0 <- op (rd_size_opt None) ;;
    k <- use k0 ;;
    ps0 <- lift (resize c sz_Patch pt_default k (patches spec)) ;;
    ps <- mapM (load_patch c (file_type (mesh_format spec) =? 0)) ps0 ;;
    ret (set_patches ps spec)
  else ret spec.
