(** src/element_utils.cpp *)

From Verif Require Export Model.Cxx.

(** element_utils.cpp:18-49 element_sizes[] *)
Definition element_sizes : list Z :=
  [0; 2; 3; 4; 4; 8; 6; 5; 3; 6; 9; 10; 27; 18; 14; 1; 8; 20; 15; 13; 9; 10; 12; 15; 15; 21;
   4; 5; 6; 20; 35; 56].

(** element_utils.cpp:57-88 element_dims[] *)
Definition element_dims : list Z :=
  [0; 1; 2; 2; 3; 3; 3; 3; 1; 2; 2; 3; 3; 3; 3; 0; 2; 3; 3; 3; 2; 2; 2; 2; 2; 2;
   1; 1; 1; 3; 3; 3].

(** element_utils.cpp:5-12 assert_element_is_supported *)
Definition assert_supported (t : Z) : outcome unit :=
  if (t <=? 0) || (32 <=? t) then Throw (UnsupportedFeature (str "Unsupported element type: " ++ show_Z t)) else Ok tt.

(** Array indexing. *)
Definition at_arr (l : list Z) (i : Z) : outcome Z :=
  match nth_error l (Z.to_nat i) with Some x => Ok x | None => Undef OutOfBounds end.

(** element_utils.cpp:14-51 *)
Definition nodes_per_element (t : Z) : outcome Z :=
  obind (assert_supported t) (fun _ => at_arr element_sizes t).

(** element_utils.cpp:53-90 *)
Definition get_element_dim (t : Z) : outcome Z :=
  obind (assert_supported t) (fun _ => at_arr element_dims t).
