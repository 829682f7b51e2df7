(** tests/test_io.cpp:10-202: the comparisons of two specs and the round trip
    that nearly every test case of the project ends with.

    [Ok true]: all REQUIREs passed; [Ok false]: one did not, and the test case
    stopped there.  Successive REQUIREs are one conjunction: none of them has an
    effect.  Each leaf SECTION of save_and_load is a run of its own on a new
    spec, given here by the version and file type it sets. *)

From Verif Require Export Model.LoadMsh Model.Save Model.Validate.

(** operator== on doubles (IEEE 754): a NaN equals nothing, and the zeros are
    equal. *)
Definition deq (x y : dbl) : bool :=
  (dmag x <=? inf_mag) && (dmag y <=? inf_mag) &&
  ((x =? y) || (dmag x =? 0) && (dmag y =? 0)).

(** operator== on vectors. *)
Fixpoint vec_eq {A} (eq : A -> A -> bool) (l1 l2 : list A) : bool :=
  match l1, l2 with
  | [], [] => true
  | x :: l1', y :: l2' => eq x y && vec_eq eq l1' l2'
  | _, _ => false
  end.

(** REQUIRE(b), then [k]. *)
Definition REQUIRE (b : bool) (k : outcome bool) : outcome bool := if b then k else Ok false.
(** One part of a test, then another. *)
Definition both (x y : outcome bool) : outcome bool := obind x (fun b => REQUIRE b y).
Fixpoint each (f : Z -> outcome bool) (l : list Z) : outcome bool :=
  match l with
  | [] => Ok true
  | i :: l' => both (f i) (each f l')
  end.
(** for i < n: the bodies get l1[i] and l2[i]. *)
Definition each2 {A} (n : Z) (l1 l2 : list A) (f : A -> A -> outcome bool) : outcome bool :=
  each (fun i => obind (at_ l1 i) (fun x => obind (at_ l2 i) (fun y => f x y))) (iota n).

(** ASSERT_SAME_NODES: test_io.cpp:10-32 *)
Definition assert_same_nodes (s1 s2 : MshSpec) : outcome bool :=
  let n1 := nodes s1 in let n2 := nodes s2 in
  REQUIRE ((n_num_blocks n1 =? n_num_blocks n2) && (n_num_nodes n1 =? n_num_nodes n2) &&
           (n_min n1 =? n_min n2) && (n_max n1 =? n_max n2))
  (each2 (n_num_blocks n1) (n_blocks n1) (n_blocks n2) (fun b1 b2 =>
     Ok ((nb_dim b1 =? nb_dim b2) && (nb_tag b1 =? nb_tag b2) && (nb_parametric b1 =? nb_parametric b2) &&
         vec_eq Z.eqb (nb_tags b1) (nb_tags b2) && vec_eq deq (nb_data b1) (nb_data b2)))).

(** ASSERT_SAME_ELEMENTS: test_io.cpp:34-54 *)
Definition assert_same_elements (s1 s2 : MshSpec) : outcome bool :=
  let e1 := elements s1 in let e2 := elements s2 in
  REQUIRE ((e_num_blocks e1 =? e_num_blocks e2) && (e_num_elements e1 =? e_num_elements e2) &&
           (e_min e1 =? e_min e2) && (e_max e1 =? e_max e2))
  (each2 (e_num_blocks e1) (e_blocks e1) (e_blocks e2) (fun b1 b2 =>
     Ok ((eb_dim b1 =? eb_dim b2) && (eb_tag b1 =? eb_tag b2) && (eb_type b1 =? eb_type b2) &&
         (eb_num b1 =? eb_num b2) && vec_eq Z.eqb (eb_data b1) (eb_data b2)))).

(** ASSERT_SAME_NODE_DATA, ASSERT_SAME_ELEMENT_DATA ([npe] false) and
    ASSERT_SAME_ELEMENT_NODE_DATA ([npe] true): test_io.cpp:56-80, 82-106,
    108-133 *)
Definition assert_same_data (npe : bool) (l1 l2 : list Data) : outcome bool :=
  REQUIRE (zlen l1 =? zlen l2)
  (each2 (zlen l1) l1 l2 (fun d1 d2 =>
     let h1 := d_header d1 in let h2 := d_header d2 in
     REQUIRE (vec_eq bytes_eqb (string_tags h1) (string_tags h2) && vec_eq deq (real_tags h1) (real_tags h2) &&
              vec_eq Z.eqb (int_tags h1) (int_tags h2) && (zlen (d_entries d1) =? zlen (d_entries d2)))
     (each2 (zlen (d_entries d1)) (d_entries d1) (d_entries d2) (fun e1 e2 =>
        Ok ((de_tag e1 =? de_tag e2) && (negb npe || (de_npe e1 =? de_npe e2)) &&
            vec_eq deq (de_data e1) (de_data e2)))))).

(** ASSERT_SAME_CURVES: test_io.cpp:135-158 *)
Definition assert_same_curves (c : cfg) (s1 s2 : MshSpec) : outcome bool :=
  if nanospline c then
    REQUIRE (zlen (curves s1) =? zlen (curves s2))
    (each2 (zlen (curves s1)) (curves s1) (curves s2) (fun c1 c2 =>
       Ok ((cv_tag c1 =? cv_tag c2) && (cv_type c1 =? cv_type c2) && (cv_degree c1 =? cv_degree c2) &&
           (cv_ncp c1 =? cv_ncp c2) && (cv_nknots c1 =? cv_nknots c2) && (cv_weights c1 =? cv_weights c2) &&
           vec_eq deq (cv_data c1) (cv_data c2))))
  else Ok true.

(** ASSERT_SAME: test_io.cpp:160-169 *)
Definition assert_same (c : cfg) (s1 s2 : MshSpec) : outcome bool :=
  both (assert_same_nodes s1 s2)
  (both (assert_same_elements s1 s2)
  (both (assert_same_data false (node_data s1) (node_data s2))
  (both (assert_same_data false (element_data s1) (element_data s2))
  (both (assert_same_data true (element_node_data s1) (element_node_data s2))
  (assert_same_curves c s1 s2))))).

(** save_and_load: test_io.cpp:171-202, the SECTION that sets version [v] and
    file type [ft].  The stringstream has its own precision of six digits and is
    read from the start. *)
Definition save_and_load (c : cfg) (v : bytes) (ft : Z) (spec : MshSpec) : outcome bool :=
  let s := set_format {| version := v; file_type := ft; data_size := data_size (mesh_format spec) |} spec in
  obind (validate_spec s) (fun _ =>
  let (contents, w) := save_msh c s in
  obind w (fun _ =>
  obind (load_msh c contents) (fun s2 => assert_same c s s2))).
