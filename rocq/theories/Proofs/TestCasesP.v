(** The test cases pass. *)

From Verif Require Import Model.TestCases Spec.Valid Proofs.BytesP Proofs.RtBase Proofs.ShowP Proofs.TextP Proofs.RoundP Proofs.TestRtP Spec.Builds Proofs.BuildsP Proofs.BuiltP Spec.Built.
Ltac Zify.zify_post_hook ::= idtac.

Lemma stays_blocks : forall r a ps t, Forall (fun b => Forall (stays r a) (nb_data b)) (node_blocks t ps) <->
  Forall (stays r a) (coordinates ps).
Proof.
  intros r a. induction ps as [|p ps IH]; intro t; [split; constructor|]. cbn [node_blocks]. unfold coordinates. cbn [flat_map].
  fold (coordinates ps). rewrite Forall_cons_iff, Forall_app, IH. cbn [nb_data]. reflexivity.
Qed.

Lemma built_survives : forall c a r ps o, propers ps -> (survives c a r (built ps o) <-> all_stay c a r ps o).
Proof.
  intros c a r ps o P. destruct (built_nodes_eq ps) as (N1 & _ & N3). destruct (built_elements_eq ps) as (E1 & _ & _).
  pose proof (parts_points ps P) as K1. pose proof (parts_cells ps P) as K2.
  assert (N : zlen ps <= 0 -> ps = []).
  { intro H. destruct ps as [|p l]; [reflexivity|]. rewrite zlen_cons in H. pose proof (zlen_nonneg _ l). lia. }
  split.
  - intros [S1 _ _ S4 S5]. cbn [built nodes] in S1. rewrite N3, stays_blocks in S1. split; assumption.
  - intros [S1 S4 S5]. split; cbn [built nodes elements]; [rewrite N3, stays_blocks; exact S1| | |exact S4|exact S5].
    + rewrite N1. intro H. rewrite N by lia. reflexivity.
    + rewrite E1. intro H. rewrite N by lia. reflexivity.
Qed.

Lemma cell_tags_small : forall c a ps, propers ps -> roomy c ps -> Forall (dbl_ok a) (coordinates ps) ->
  Forall (fun e => el_tag e <= INT_MAX) (mesh_elements (built_elements ps)).
Proof.
  intros c a ps P R D. rewrite (built_mesh_cells ps P). apply Forall_forall. intros e E. apply (in_map el_tag) in E.
  rewrite all_tags, in_from in E. pose proof (total_cells_le ps) as K. destruct R as [_ R _]. unfold total, zlen in *. lia.
Qed.

Lemma built_passes : forall c a ps o, propers ps -> roomy c ps -> rest_ok c a o -> Forall (dbl_ok a) (coordinates ps) ->
  (save_and_load c (str "4.1") (if a then 0 else 1) (built ps o) = Ok true <-> all_stay c a ascii_round ps o) /\
  (save_and_load c (str "2.2") (if a then 0 else 1) (built ps o) = Ok true <-> all_stay c a ascii_round ps o).
Proof.
  intros c a ps o P R O D. pose proof (built_valid c a ps o P R D) as V. pose proof (built_survives c a ascii_round ps o P) as S.
  split; rewrite <- S.
  - destruct (pass41 _ _ _ (built_41 c a ps o P R O D) V) as [[-> A]|[-> A]]; [tauto|]. split; [discriminate|tauto].
  - destruct (pass22 c a (built ps o) (built_22 c a ps o P R O D) V (cell_tags_small c a ps P R D)) as [[-> A]|[-> A]]; [tauto|].
    split; [discriminate|]. intro Q. exfalso. apply A. split; [exact Q|]. exact (built_regular c a ps o P R D).
Qed.

(** ** The data of the tests *)

Lemma entries_length : forall npe k l tag, zlen (data_entries npe k tag l) = zlen l.
Proof. induction l as [|x l IH]; intro tag; [reflexivity|]. cbn [data_entries]. rewrite !zlen_cons, IH. reflexivity. Qed.

Lemma entries_all : forall (Q : DataEntry -> Prop) npe k l tag, 0 <= tag -> tag + zlen l <= 2 ^ 31 ->
  (forall t x, 0 <= t < 2 ^ 31 -> In x l -> Q {| de_tag := t; de_npe := npe; de_data := repeat x k |}) ->
  Forall Q (data_entries npe k tag l).
Proof.
  intros Q npe k. induction l as [|x l IH]; intros tag T L H; [constructor|]. rewrite zlen_cons in L. pose proof (zlen_nonneg _ l).
  cbn [data_entries]. constructor.
  - apply H; [lia|left; reflexivity].
  - rewrite to_size_id by (change (2 ^ 31) with 2147483648 in L; unfold two64; lia).
    apply IH; [lia|lia|]. intros t y A B. apply H; [exact A|right; exact B].
Qed.

Lemma entries_conv : forall (Q : DataEntry -> Prop) npe k l tag, Forall Q (data_entries npe k tag l) ->
  forall x, In x l -> exists t, Q {| de_tag := t; de_npe := npe; de_data := repeat x k |}.
Proof.
  intros Q npe k. induction l as [|y l IH]; intros tag F x X; [destruct X|]. cbn [data_entries] in F.
  destruct X as [->|X]; [exists tag; exact (Forall_inv F)|]. exact (IH _ (Forall_inv_tail F) x X).
Qed.

Section Attr.
Variables (c : cfg) (a pn : bool) (npe : Z) (k : nat) (tag : Z) (more : list Z) (name : bytes) (values : list dbl).
Hypothesis K : if pn then npe = Z.of_nat k /\ npe <= 1000 else npe = 0 /\ k = 1%nat.
Hypothesis T : 0 <= tag /\ tag + zlen values <= 2 ^ 31.
Hypothesis M : Forall int_ok more /\ zlen more <= 1000.
Hypothesis V : Forall (dbl_ok a) values.
Hypothesis R : 128 * (zlen values + 1000) <= mem c.

Lemma attr_len : zlen values <= 2 ^ 31.
Proof. destruct T. lia. Qed.

Lemma attr_fits : forall sz n, 0 < sz -> n * sz <= 128 * (zlen values + 1000) -> fits c sz n.
Proof.
  intros sz n S H. split; [|lia]. apply Z.div_le_lower_bound; [exact S|]. pose proof attr_len as L.
  change (2 ^ 31) with 2147483648 in L. unfold PTRDIFF_MAX. lia.
Qed.

Hypothesis NE : zlen values <= INT_MAX.

Lemma attr_ok : data_ok c a pn (data_attr npe k tag more name values).
Proof.
  pose proof (zlen_nonneg _ values) as Z0. pose proof (zlen_nonneg _ more) as Z1.
  assert (I : to_int (zlen values) = zlen values).
  { apply to_int_id. unfold int_ok, INT_MIN. revert NE Z0. generalize (zlen values). intros. lia. }
  destruct M as [M1 M2]. destruct T as [T1 T2].
  split; cbn [data_attr d_header string_tags real_tags int_tags d_entries].
  - apply attr_fits; [reflexivity|]. rewrite zlen_cons, zlen_nil. unfold sz_string. lia.
  - constructor; [|constructor]. split; [split; reflexivity|]. discriminate.
  - apply attr_fits; [reflexivity|]. rewrite zlen_cons, zlen_nil. unfold sz_double. lia.
  - rewrite I. split.
    + apply Forall_app. split; [|exact M1]. repeat constructor; try discriminate; try exact NE. unfold INT_MIN. lia.
    + apply attr_fits; [reflexivity|]. rewrite zlen_app, !zlen_cons, zlen_nil. unfold sz_int. lia.
  - exists 0, 1, more. rewrite entries_length, I. split; [reflexivity|].
    apply entries_all; [exact T1|exact T2|]. intros t x A B.
    assert (L : zlen (repeat x k) = if pn then 1 * npe else 1).
    { unfold zlen. rewrite repeat_length. destruct pn; [lia|]. destruct K as [_ ->]. reflexivity. }
    split; cbn [de_tag de_npe de_data].
    + split; [lia|]. change (2 ^ 31) with 2147483648 in A. unfold two64. lia.
    + destruct pn; [|apply K]. unfold INT_MAX. lia.
    + exact L.
    + rewrite Forall_forall in V. apply Forall_forall. intros y Y. apply repeat_spec in Y. subst y. apply V, B.
    + apply attr_fits; [reflexivity|]. rewrite L. unfold sz_double. destruct pn; lia.
  - rewrite entries_length. apply attr_fits; [reflexivity|]. unfold sz_DataEntry. lia.
Qed.

Lemma attr_survives : forall r, (dval (r 0%Z) == dval 0%Z)%Q -> (0 < k)%nat ->
  (data_survives a r (data_attr npe k tag more name values) <-> Forall (stays r a) values).
Proof.
  intros r Z0 K0. destruct T as [T1 T2]. split.
  - intros [_ S]. cbn [data_attr d_entries] in S. apply Forall_forall. intros x X.
    destruct (entries_conv _ _ _ _ _ S x X) as (t & _ & F). cbn [de_data] in F. rewrite Forall_forall in F. apply F.
    clear K. destruct k; [lia|]. left. reflexivity.
  - intro F. split; cbn [data_attr d_header real_tags d_entries].
    + constructor; [exact Z0|constructor].
    + apply entries_all; [exact T1|exact T2|]. intros t x A B. cbn [de_tag de_data]. split; [intros _; left; lia|].
      apply Forall_forall. intros y Y. apply repeat_spec in Y. subst y. rewrite Forall_forall in F. exact (F x B).
Qed.
End Attr.

(** ** The tests *)

Lemma zero_stays : (dval (ascii_round 0%Z) == dval 0%Z)%Q.
Proof. vm_compute. reflexivity. Qed.

Lemma one_digit : forall x, In x [0; d_1; d_2; d_3] -> size_ok x /\ finite x /\ six_digit x.
Proof.
  intros x H. destruct H as [<-|[<-|[<-|[<-|[]]]]]; (split; [split; [discriminate|reflexivity]|]); (split; [discriminate|]).
  - exists 0, 0. split; [reflexivity|]. left. vm_compute. reflexivity.
  - exists 1, 0. split; [reflexivity|]. left. vm_compute. reflexivity.
  - exists 2, 0. split; [reflexivity|]. left. vm_compute. reflexivity.
  - exists 3, 0. split; [reflexivity|]. left. vm_compute. reflexivity.
Qed.

Lemma digits_ok : forall a l, incl l [0; d_1; d_2; d_3] -> Forall (dbl_ok a) l /\ Forall (stays ascii_round a) l.
Proof.
  intros a l H. split; apply Forall_forall; intros x X; destruct (one_digit x (H x X)) as (S & F & D).
  - split; auto.
  - unfold stays. destruct a; [|left; exact F]. rewrite six_digit_fixed by assumption. reflexivity.
Qed.

Ltac within := intros ?x ?H; cbn in *; intuition congruence.

Lemma nothing_fits : forall c a, 0 <= mem c -> rest_ok c a nothing.
Proof.
  intros c a ME.
  assert (F : forall sz, 0 < sz -> fits c sz 0) by (intros sz S; split; [apply Z.div_pos; [discriminate|exact S]|lia]).
  split; cbn [nothing with_entities with_groups with_node_data with_element_data with_element_node_data with_curves with_patches].
  - repeat split; try constructor; try (apply F; reflexivity).
    all: cbn; discriminate.
  - split; [constructor|discriminate|apply F; reflexivity].
  - constructor.
  - constructor.
  - constructor.
  - intros _. split; [constructor|apply F; reflexivity].
  - intros _. split; [constructor|apply F; reflexivity].
Qed.

Section Tests.
Variables (c : cfg) (a : bool).
Hypothesis ME : 1000000 <= mem c.

Definition versions : list bytes := [str "4.1"; str "2.2"].

(** A spec made of parts with small numbers. *)
Lemma passes : forall ps o v, In v versions -> propers ps -> total p_points ps <= 1000 -> total numbers ps <= 1000 -> rest_ok c a o ->
  incl (coordinates ps) [0; d_1; d_2; d_3] ->
  Forall (data_survives a ascii_round) (with_node_data o ++ with_element_data o ++ with_element_node_data o) ->
  incl (flat_map cv_data (with_curves o)) [0; d_1; d_2; d_3] ->
  save_and_load c v (if a then 0 else 1) (built ps o) = Ok true /\ validate_spec (built ps o) = Ok tt.
Proof.
  intros ps o v Hv P N1 N2 O C S K. destruct (digits_ok a _ C) as [C1 C2].
  assert (R : roomy c ps) by (split; unfold INT_MAX; lia).
  split; [|exact (built_valid c a ps o P R C1)].
  destruct (built_passes c a ps o P R O C1) as [B1 B2].
  assert (A : all_stay c a ascii_round ps o).
  { split; [exact C2|exact S|]. intros _. apply Forall_forall. intros k Hk. destruct (digits_ok a (cv_data k)) as [_ F]; [|exact F].
    intros x X. apply K. apply in_flat_map. eauto. }
  destruct Hv as [<-|[<-|[]]]; tauto.
Qed.

Lemma nothing_ok : rest_ok c a nothing.
Proof. apply nothing_fits. lia. Qed.

Ltac one_of := cbn; first [left; reflexivity | right; one_of].

Ltac proper_part n :=
  split; cbn [p_entity p_type p_points p_cells];
  [ split; discriminate | discriminate
  | exists n; split; [reflexivity|repeat constructor]
  | discriminate | discriminate
  | repeat constructor; discriminate
  | intros i H; unfold zlen in H; cbn in H ].

Definition point_part : part := {| p_entity := 1; p_type := 15; p_points := [(0, 0, 0)]; p_cells := [[0]] |}.
Definition line_part : part := {| p_entity := 1; p_type := 1; p_points := [(0, 0, 0); (d_1, 0, 0)]; p_cells := [[0; 1]] |}.
Definition triangle_part (twice : bool) : part :=
  {| p_entity := 1; p_type := 2; p_points := [(0, 0, 0); (d_1, 0, 0); (d_1, d_1, 0)];
     p_cells := [0; 1; 2] :: if twice then [[0; 1; 2]] else [] |}.
Definition square : list (dbl * dbl * dbl) := [(0, 0, 0); (d_1, 0, 0); (d_1, d_1, 0); (0, d_1, 0)].
Definition quad_part : part := {| p_entity := 1; p_type := 3; p_points := square; p_cells := [[0; 1; 2; 3]] |}.
Definition edges_part : part :=
  {| p_entity := 1; p_type := 1; p_points := square; p_cells := [[0; 1]; [1; 2]; [2; 3]; [3; 0]] |}.

Lemma point_proper : proper point_part.
Proof. proper_part 1. exists [0]. split; [left; reflexivity|]. left. lia. Qed.
Lemma line_proper : proper line_part.
Proof. proper_part 2. exists [0; 1]. split; [left; reflexivity|]. cbn. lia. Qed.
Lemma triangle_proper : forall twice, proper (triangle_part twice).
Proof. intros []; (proper_part 3; exists [0; 1; 2]; split; [left; reflexivity|]; cbn; lia). Qed.
Lemma quad_proper : proper quad_part.
Proof. proper_part 4. exists [0; 1; 2; 3]. split; [left; reflexivity|]. cbn. lia. Qed.
Lemma edges_proper : proper edges_part.
Proof.
  proper_part 2. assert (Q : i = 0 \/ i = 1 \/ i = 2 \/ i = 3) by lia. destruct Q as [-> | [-> | [-> | -> ]]].
  - exists [0; 1]. split; one_of.
  - exists [1; 2]. split; one_of.
  - exists [2; 3]. split; one_of.
  - exists [3; 0]. split; one_of.
Qed.

Lemma mesh_case : forall ps s v, In v versions -> propers ps -> total p_points ps <= 1000 -> total numbers ps <= 1000 ->
  incl (coordinates ps) [0; d_1; d_2; d_3] -> s = built ps nothing -> validate_spec (set_elements e_default s) = Ok tt ->
  finish_mesh c v (if a then 0 else 1) s = Ok true.
Proof.
  intros ps s v Hv P N1 N2 C -> V. unfold finish_mesh, finish. rewrite V. cbn [obind].
  destruct (passes ps nothing v Hv P N1 N2 nothing_ok C) as [E1 E2]; [constructor|intros x []|]. rewrite E2. exact E1.
Qed.

Ltac mesh_test ps := intros v Hv; apply (mesh_case ps); [exact Hv| |discriminate|discriminate|within|reflexivity|reflexivity].

Lemma point_passes : forall v, In v versions -> test_point c v (if a then 0 else 1) = Ok true.
Proof. mesh_test [point_part]. split; [constructor; [apply point_proper|constructor]|exact I]. Qed.
Lemma line_passes : forall v, In v versions -> test_line c v (if a then 0 else 1) = Ok true.
Proof. mesh_test [line_part]. split; [constructor; [apply line_proper|constructor]|exact I]. Qed.
Lemma triangle_passes : forall v, In v versions -> test_triangle c v (if a then 0 else 1) = Ok true.
Proof. mesh_test [triangle_part true]. split; [constructor; [apply triangle_proper|constructor]|exact I]. Qed.
Lemma mixed_passes : forall v, In v versions -> test_mixed c v (if a then 0 else 1) = Ok true.
Proof.
  mesh_test [quad_part; edges_part]. split; [constructor; [apply quad_proper|constructor; [apply edges_proper|constructor]]|].
  split; [discriminate|exact I].
Qed.
Lemma empty_passes : forall v, In v versions -> test_empty c v (if a then 0 else 1) = Ok true.
Proof.
  intros v Hv. destruct (passes [] nothing v Hv) as [E _]; try discriminate; try exact E; try (intros x []); try exact nothing_ok.
  - split; [constructor|exact I].
  - constructor.
Qed.

Lemma fits_small : forall sz n, 0 < sz -> n * sz <= 1000000 -> fits c sz n.
Proof. intros sz n S H. split; [|lia]. apply Z.div_le_lower_bound; [exact S|]. unfold PTRDIFF_MAX. lia. Qed.

Definition with_data (n e en : list Data) : rest := {| with_entities := ents_default; with_groups := []; with_node_data := n;
  with_element_data := e; with_element_node_data := en; with_curves := []; with_patches := [] |}.

Lemma data_case : forall n e en v, In v versions ->
  Forall (fun d => data_ok c a false d /\ data_survives a ascii_round d) (n ++ e) ->
  Forall (fun d => data_ok c a true d /\ data_survives a ascii_round d) en ->
  finish c v (if a then 0 else 1) (only_data n e en) = Ok true.
Proof.
  intros n e en v Hv F1 F2. apply Forall_app in F1 as [F0 F1]. pose proof nothing_ok as [O1 O2 _ _ _ O6 O7].
  assert (S : forall pn l, Forall (fun d => data_ok c a pn d /\ data_survives a ascii_round d) l ->
    Forall (data_ok c a pn) l /\ Forall (data_survives a ascii_round) l).
  { intros pn l F. split; (eapply Forall_impl; [|exact F]; cbv beta; tauto). }
  destruct (S _ _ F0) as [A0 B0], (S _ _ F1) as [A1 B1], (S _ _ F2) as [A2 B2].
  destruct (passes [] (with_data n e en) v Hv) as [E1 E2]; try discriminate.
  - split; [constructor|exact I].
  - split; assumption.
  - intros x X. destruct X.
  - cbn [with_data with_node_data with_element_data with_element_node_data]. rewrite !Forall_app. auto.
  - intros x X. destruct X.
  - unfold finish. change (validate_spec (only_data n e en)) with (validate_spec (built [] (with_data n e en))). rewrite E2. exact E1.
Qed.

Lemma attr_case : forall (pn : bool) npe k tag more name (l : list dbl), (if pn then npe = Z.of_nat k /\ npe <= 1000 else npe = 0 /\ k = 1%nat) ->
  (0 < k)%nat -> 0 <= tag <= 1000 -> Forall int_ok more -> zlen more <= 1000 -> zlen l <= 1000 -> incl l [0; d_1; d_2; d_3] ->
  data_ok c a pn (data_attr npe k tag more name l) /\ data_survives a ascii_round (data_attr npe k tag more name l).
Proof.
  intros pn npe k tag more name l K K0 T M1 M2 L H. destruct (digits_ok a l H) as [D1 D2].
  split.
  - apply attr_ok; try assumption; try (split; assumption); try lia; try (unfold INT_MAX; lia).
  - apply (proj2 (attr_survives a npe k tag more name l ltac:(lia) ascii_round zero_stays K0)). exact D2.
Qed.

Lemma node_data_passes : forall v, In v versions -> test_node_data c v (if a then 0 else 1) = Ok true.
Proof.
  intros v Hv. apply (data_case [node_attr] [] []); [exact Hv| |constructor]. constructor; [|constructor].
  change node_attr with (data_attr 0 1 1 [0] (str "test") [d_1; d_2]).
  apply attr_case; try discriminate; try (split; reflexivity || discriminate); [constructor| |within].
  constructor; [|constructor]. split; discriminate.
Qed.

Lemma element_data_passes : forall v, In v versions -> test_element_data c v (if a then 0 else 1) = Ok true.
Proof.
  intros v Hv. apply data_case; [exact Hv| |constructor]. constructor; [|constructor; [|constructor]].
  - apply attr_case; try discriminate; try (split; reflexivity || discriminate); [constructor| |within].
    constructor; [|constructor; [|constructor]]; split; discriminate.
  - apply attr_case; try discriminate; try (split; reflexivity || discriminate); [constructor| |within].
    constructor; [|constructor; [|constructor]]; split; discriminate.
Qed.

Lemma element_node_data_passes : forall v, In v versions -> test_element_node_data c v (if a then 0 else 1) = Ok true.
Proof.
  intros v Hv. apply data_case; [exact Hv|constructor|]. constructor; [|constructor].
  apply attr_case; try discriminate; try (split; reflexivity || discriminate); [lia| |within].
  constructor; [|constructor; [|constructor]]; split; discriminate.
Qed.

Definition group_rest : rest := {| with_entities := entities group_spec; with_groups := physical_groups group_spec;
  with_node_data := []; with_element_data := []; with_element_node_data := []; with_curves := []; with_patches := [] |}.

Lemma group_ok : rest_ok c a group_rest.
Proof.
  pose proof nothing_ok as [[P1 P2 P3 P4] O2 O3 O4 O5 O6 O7]. split; try assumption.
  - split; try assumption. split; [|apply fits_small; [reflexivity|discriminate]]. constructor; [|constructor].
    destruct (digits_ok a [0; d_1]) as [D _]; [within|]. pose proof (Forall_inv D) as D0. apply Forall_inv_tail in D. pose proof (Forall_inv D) as D1.
    split; cbn [group_surface en_tag en_min_x en_min_y en_min_z en_max_x en_max_y en_max_z en_phys en_bnd]; auto.
    + split; discriminate.
    + split; [constructor; [split; discriminate|constructor]|apply fits_small; [reflexivity|discriminate]].
    + split; [constructor|apply fits_small; [reflexivity|discriminate]].
  - split; [|discriminate|apply fits_small; [reflexivity|discriminate]]. constructor; [|constructor]. split; split; discriminate.
Qed.

Lemma group_passes : forall v, In v versions -> test_group c v (if a then 0 else 1) = Ok true.
Proof.
  intros v Hv. destruct (passes [triangle_part false] group_rest v Hv) as [E1 E2]; try discriminate.
  - split; [constructor; [apply triangle_proper|constructor]|exact I].
  - exact group_ok.
  - within.
  - constructor.
  - intros x X. destruct X.
  - unfold test_group, finish. change group_spec with (built [triangle_part false] group_rest). rewrite E2. exact E1.
Qed.

Definition spline_rest : rest := {| with_entities := ents_default; with_groups := []; with_node_data := [];
  with_element_data := []; with_element_node_data := []; with_curves := spline_curves; with_patches := spline_patches |}.

Lemma spline_ok : rest_ok c a spline_rest.
Proof.
  pose proof nothing_ok as [O1 O2 O3 O4 O5 O6 O7].
  assert (D : forall l, incl l [0; d_1; d_2; d_3] -> Forall (dbl_ok a) l) by (intros l H; apply (digits_ok a l H)).
  split; try assumption; intros _; cbn [spline_rest with_curves with_patches].
  - split; [|apply fits_small; [reflexivity|discriminate]].
    constructor; [|constructor; [|constructor]]; split; cbn [cv_tag cv_type cv_degree cv_ncp cv_nknots cv_weights cv_data];
      try reflexivity; try (repeat split; discriminate || reflexivity); try (apply fits_small; [reflexivity|discriminate]); apply D; within.
  - split; [|apply fits_small; [reflexivity|discriminate]].
    constructor; [|constructor]. split; cbn [pt_tag pt_type pt_degu pt_degv pt_ncp pt_nu pt_nv pt_weights pt_data];
      try reflexivity; try (repeat split; discriminate || reflexivity); try (apply fits_small; [reflexivity|discriminate]).
    apply D. intros x X. apply in_flat_map in X as (y & Y & X). apply in_flat_map in X as (z & Z & X).
    destruct X as [<-|[<-|[<-|[<-|[]]]]]; [exact Z|exact Y|left; reflexivity|right; left; reflexivity].
Qed.

Lemma splines_pass : forall v, In v versions -> test_splines c v (if a then 0 else 1) = Ok true.
Proof.
  intros v Hv. destruct (passes [] spline_rest v Hv) as [E1 E2]; try discriminate.
  - split; [constructor|exact I].
  - exact spline_ok.
  - intros x X. destruct X.
  - constructor.
  - within.
  - unfold test_splines, finish. change spline_spec with (built [] spline_rest). rewrite E2. exact E1.
Qed.
End Tests.

(** ** From one build to others *)

Lemma same_assert : forall c c' s s', nanospline c' = nanospline c -> assert_same c' s s' = assert_same c s s'.
Proof. intros c c' s s' E. unfold assert_same, assert_same_curves. rewrite E. reflexivity. Qed.

Lemma same_test : forall c c' v ft s x, eases c c' -> save_and_load c v ft s = Ok x -> save_and_load c' v ft s = Ok x.
Proof.
  intros c c' v ft s x E H. unfold save_and_load in *. cbv zeta in *.
  destruct (validate_spec _) as [[]| | | |]; cbn [obind] in *; try discriminate.
  set (t := set_format _ s) in *. destruct (wsame_save c c' E t) as [W|W].
  { destruct (save_msh c t) as [b w]. cbn [snd] in W. subst w. discriminate. }
  rewrite W. destruct (save_msh c t) as [b w]. destruct w as [[]| | | |]; cbn [obind] in *; try discriminate.
  destruct (same_load c c' E b) as [L|[L|L]]; [rewrite L in H; discriminate|rewrite L in H; discriminate|].
  rewrite L. destruct (load_msh c b) as [s2| | | |]; cbn [obind] in *; try discriminate.
  rewrite (same_assert c c') by apply E. exact H.
Qed.

Lemma same_load_test : forall c c' f x, eases c c' -> test_load c f = Ok x -> test_load c' f = Ok x.
Proof.
  intros c c' f x E H. unfold test_load in *.
  destruct (same_load c c' E f) as [L|[L|L]]; [rewrite L in H; discriminate|rewrite L in H; discriminate|].
  rewrite L. destruct (load_msh c f) as [s| | | |]; cbn [obind] in *; try discriminate.
  destruct (validate_spec s) as [[]| | | |]; cbn [obind] in *; try discriminate.
  unfold REQUIRE in *. destruct (_ =? 6); [|exact H]. destruct (_ =? 2); [|exact H]. exact (same_test c c' _ _ _ _ E H).
Qed.
