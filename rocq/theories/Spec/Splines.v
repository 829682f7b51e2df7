(** Builds with and without MSHIO_EXT_NANOSPLINE side by side. *)

From Verif Require Export Model.MshSpec.

(** The mesh alone: what a build without the extension knows of a spec. *)
Definition mesh_only (s : MshSpec) : MshSpec := set_curves [] (set_patches [] s).

(** The same as if nothing about splines had ever been set (MshSpec.h:129-135). *)
Definition no_splines (s : MshSpec) : MshSpec := set_ns_version (str "1.0") (mesh_only s).

(** Control points and knots. *)
Definition spline_values (s : MshSpec) : list dbl :=
  flat_map cv_data (curves s) ++ flat_map pt_data (patches s).

(** None of the eight bytes of the number is a dollar sign. *)
Definition dollar_free (x : dbl) : Prop := forall i, 0 <= i < 8 -> (x / 256 ^ i) mod 256 <> 36.
