(** C74: meshes numbered the way applications number them come back as they
    were in all four formats, and the project's test cases pass on every build. *)

From Verif Require Import Tests.Samples Model.TestCases Spec.Builds Spec.Rounding Proofs.BuildsP Proofs.ShowP Proofs.RoundP Proofs.TextP Proofs.BuiltP Proofs.TestCasesP Spec.Built.
Ltac Zify.zify_post_hook ::= idtac.

(** Any number of parts of any size and element type, with anything along. *)
Theorem C74_built : exists r : dbl -> dbl,
  (forall x, size_ok x -> finite x -> six_digits_of x (r x)) /\
  (forall x, size_ok x -> finite x -> six_digit x -> r x = x) /\
  forall c a ps o, propers ps -> roomy c ps -> rest_ok c a o -> Forall (dbl_ok a) (coordinates ps) ->
    validate_spec (built ps o) = Ok tt /\
    (save_and_load c (str "4.1") (if a then 0 else 1) (built ps o) = Ok true <-> all_stay c a r ps o) /\
    (save_and_load c (str "2.2") (if a then 0 else 1) (built ps o) = Ok true <-> all_stay c a r ps o).
Proof.
  exists ascii_round. split; [exact ascii_round_six|]. split; [exact six_digit_fixed|]. intros c a ps o P R O D.
  split; [exact (built_valid c a ps o P R D)|]. exact (built_passes c a ps o P R O D).
Qed.
Print Assumptions C74_built.

Definition c_test (nd ext : bool) : cfg := {| ndebug := nd; nanospline := ext; mem := 1000000 |}.

(** A quad and its four edges, on points of their own. *)
Example C74_built_ex : propers [quad_part; edges_part] /\ roomy (c_test true true) [quad_part; edges_part] /\
  coordinates [quad_part; edges_part] <> [] /\ forall a, rest_ok (c_test true true) a nothing.
Proof.
  split; [split; [constructor; [apply quad_proper|constructor; [apply edges_proper|constructor]]|split; [discriminate|exact I]]|].
  split; [split; discriminate|]. split; [discriminate|]. intro a. apply nothing_fits. discriminate.
Qed.

(** Finite six-digit coordinates come back in text and binary, with no
    condition left to check. *)
Theorem C74_six : forall c (a : bool) ps, propers ps -> roomy c ps ->
  Forall (fun x => size_ok x /\ finite x /\ six_digit x) (coordinates ps) ->
  save_and_load c (str "4.1") (if a then 0 else 1) (built ps nothing) = Ok true /\
  save_and_load c (str "2.2") (if a then 0 else 1) (built ps nothing) = Ok true.
Proof.
  intros c a ps P R F.
  assert (ME : 0 <= mem c).
  { destruct R as [_ _ R]. pose proof (total_nonneg _ p_points ps). pose proof (total_nonneg _ numbers ps). lia. }
  assert (D : Forall (dbl_ok a) (coordinates ps)) by (eapply Forall_impl; [|exact F]; intros x (S & N & _); split; auto).
  destruct (built_passes c a ps nothing P R (nothing_fits c a ME) D) as [B1 B2].
  assert (A : all_stay c a ascii_round ps nothing).
  { split; [|constructor|intros _; constructor]. eapply Forall_impl; [|exact F]. intros x (S & N & X). unfold stays.
    destruct a; [|left; exact N]. rewrite six_digit_fixed by assumption. reflexivity. }
  tauto.
Qed.
Print Assumptions C74_six.

Example C74_six_ex : Forall (fun x => size_ok x /\ finite x /\ six_digit x) (coordinates [quad_part; edges_part]).
Proof. apply Forall_forall. intros x X. apply one_digit. cbn in *. intuition congruence. Qed.

(** ** Data made by the lambdas of the tests, for any name and values *)
Theorem C74_field : forall c a r name values, 128 * (zlen values + 1000) <= mem c -> zlen values <= INT_MAX - 10 ->
  Forall (dbl_ok a) values -> (dval (r 0%Z) == dval 0%Z)%Q ->
  (data_ok c a false (add_node_data name values) /\ data_ok c a false (add_element_data name values) /\
   data_ok c a true (add_element_node_data name values)) /\
  (data_survives a r (add_node_data name values) <-> Forall (stays r a) values) /\
  (data_survives a r (add_element_data name values) <-> Forall (stays r a) values) /\
  (data_survives a r (add_element_node_data name values) <-> Forall (stays r a) values).
Proof.
  intros c a r name values R L V Z0.
  assert (I : INT_MAX = 2147483647) by reflexivity. assert (P : 2 ^ 31 = 2147483648) by reflexivity.
  split; [split; [|split]|split; [|split]].
  1, 2, 3: apply attr_ok; try exact V; try exact R; try (split; reflexivity || discriminate); try lia;
    (split; [|discriminate]); (constructor; [|constructor; [|constructor]]); split; discriminate.
  all: apply attr_survives; try exact Z0; lia.
Qed.
Print Assumptions C74_field.

Example C74_field_ex : Forall (dbl_ok true) [0; d_1; d_2; d_3] /\ 128 * (zlen [0; d_1; d_2; d_3] + 1000) <= mem (c_test true true) /\
  (dval (ascii_round 0%Z) == dval 0%Z)%Q.
Proof. split; [apply (digits_ok true); apply incl_refl|]. split; [discriminate|exact zero_stays]. Qed.

(** ** The test cases, in the four formats, on every build *)
Theorem C74_tests : forall c (a : bool) v, 1000000 <= mem c -> v = str "4.1" \/ v = str "2.2" ->
  let ft := if a then 0 else 1 in
  test_empty c v ft = Ok true /\ test_point c v ft = Ok true /\ test_line c v ft = Ok true /\
  test_triangle c v ft = Ok true /\ test_mixed c v ft = Ok true /\ test_node_data c v ft = Ok true /\
  test_element_data c v ft = Ok true /\ test_element_node_data c v ft = Ok true /\ test_group c v ft = Ok true /\
  test_splines c v ft = Ok true.
Proof.
  intros c a v ME Hv ft. assert (H : In v versions) by (destruct Hv as [->| ->]; [left|right; left]; reflexivity).
  repeat split; subst ft.
  - exact (empty_passes c a ME v H).
  - exact (point_passes c a ME v H).
  - exact (line_passes c a ME v H).
  - exact (triangle_passes c a ME v H).
  - exact (mixed_passes c a ME v H).
  - exact (node_data_passes c a ME v H).
  - exact (element_data_passes c a ME v H).
  - exact (element_node_data_passes c a ME v H).
  - exact (group_passes c a ME v H).
  - exact (splines_pass c a ME v H).
Qed.
Print Assumptions C74_tests.

(** ** What the conditions are for *)

(** A point that no cell has. *)
Definition loose : part := {| p_entity := 1; p_type := 1; p_points := [(0, 0, 0); (0, 0, 0); (0, 0, 0)]; p_cells := [[0; 1]] |}.
(** Two parts on one entity. *)
Definition twin : part := {| p_entity := 1; p_type := 1; p_points := [(0, 0, 0); (0, 0, 0)]; p_cells := [[0; 1]] |}.

Theorem C74_conditions_refuted : exists c,
  (* all points used: a loose point goes to a block of its own *)
  (validate_spec (built [loose] nothing) = Ok tt /\
   save_and_load c (str "4.1") 1 (built [loose] nothing) = Ok true /\
   save_and_load c (str "2.2") 1 (built [loose] nothing) = Ok false) /\
  (* different entities: the parts become one block *)
  (proper twin /\ validate_spec (built [twin; twin] nothing) = Ok tt /\
   save_and_load c (str "4.1") 1 (built [twin; twin] nothing) = Ok true /\
   save_and_load c (str "2.2") 1 (built [twin; twin] nothing) = Ok false).
Proof.
  exists (c_test false false). split; [repeat split; vm_compute; reflexivity|]. split.
  { split; cbn [twin p_entity p_type p_points p_cells]; try discriminate.
    - split; discriminate.
    - exists 2. split; [reflexivity|repeat constructor].
    - repeat constructor; discriminate.
    - intros i H. exists [0; 1]. split; [left; reflexivity|]. unfold zlen in H. cbn in *. lia. }
  repeat split; vm_compute; reflexivity.
Qed.
Print Assumptions C74_conditions_refuted.

(** ** The test case "Load", with the binary files *)

Definition small (ext : bool) : cfg := {| ndebug := false; nanospline := ext; mem := 1000000 |}.

Lemma small_eases : forall c, 1000000 <= mem c -> eases (small (nanospline c)) c.
Proof. intros c H. split; [discriminate|]. split; [reflexivity|exact H]. Qed.

Theorem C74_load : forall c, 1000000 <= mem c ->
  test_load c f_test_22_bin = Ok true /\ test_load c f_test_41_bin = Ok true.
Proof.
  intros c H. pose proof (small_eases c H) as E.
  split; apply (same_load_test (small (nanospline c)) c); try exact E; destruct (nanospline c); vm_compute; reflexivity.
Qed.
Print Assumptions C74_load.

(** The test would fail if it saved the files in all formats: the nodes of the
    4.1 file are parametric. *)
Theorem C74_load_refuted : forall c, 1000000 <= mem c -> exists s, load_msh c f_test_41_bin = Ok s /\
  validate_spec s = Ok tt /\ save_and_load c (str "4.1") 1 s = Ok true /\ save_and_load c (str "2.2") 1 s = Ok false.
Proof.
  intros c H. pose proof (small_eases c H) as E.
  assert (X : exists s, load_msh (small (nanospline c)) f_test_41_bin = Ok s /\ validate_spec s = Ok tt /\
    save_and_load (small (nanospline c)) (str "4.1") 1 s = Ok true /\
    save_and_load (small (nanospline c)) (str "2.2") 1 s = Ok false).
  { destruct (nanospline c).
    - eexists. split; [vm_compute; reflexivity|]. split; [reflexivity|]. split; vm_compute; reflexivity.
    - eexists. split; [vm_compute; reflexivity|]. split; [reflexivity|]. split; vm_compute; reflexivity. }
  destruct X as (s & X1 & X2 & X3 & X4). exists s. split.
  - destruct (same_load _ _ E f_test_41_bin) as [L|[L|L]]; congruence.
  - split; [exact X2|]. split; [exact (same_test _ _ _ _ _ _ E X3)|exact (same_test _ _ _ _ _ _ E X4)].
Qed.
Print Assumptions C74_load_refuted.
