(** How loading and saving can fail. *)

From Verif Require Import Model.Fs Model.Validate Spec.Hazards Spec.Loaded Proofs.BytesP Proofs.TriP Proofs.ElemP Proofs.RtStep Proofs.Load22P Proofs.LoadedP Proofs.File22P Proofs.Reach Proofs.Fuel.

Ltac Zify.zify_post_hook ::= idtac.

(** Fails, if at all, in one of these ways. *)
Definition bad {A} (D : Prop) (E : exn -> Prop) (U : ub -> Prop) (o : outcome A) : Prop :=
  match o with Ok _ | Diverge => True | Abort => D | Throw e => E e | Undef u => U u end.
Definition goes {A} D E U (m : M A) : Prop := forall s, bad D E U (m s).

(** An unsupported element type is an exception that may come. *)
Definition types (E : exn -> Prop) : Prop := forall t, ~ 1 <= t <= 31 -> E (bad_element_type t).

Section Rules.
Variables (D : Prop) (E : exn -> Prop) (U : ub -> Prop).

Lemma bad_obind : forall A B (x : outcome A) (f : A -> outcome B), bad D E U x -> (forall a, x = Ok a -> bad D E U (f a)) ->
  bad D E U (obind x f).
Proof. intros A B [a| | | |] f H G; cbn [obind]; auto. Qed.

Lemma goes_bind : forall A B (m : M A) (f : A -> M B), goes D E U m -> (forall a, goes D E U (f a)) -> goes D E U (bind m f).
Proof. intros A B m f H G s. specialize (H s). unfold bind. destruct (m s) as [[a s1]| | | |]; auto. apply G. Qed.

Lemma goes_ret : forall A (a : A), goes D E U (ret a).
Proof. intros A a s. exact I. Qed.

Lemma goes_op : forall A (f : istream -> A * istream), goes D E U (op f).
Proof. intros A f s. exact I. Qed.

Lemma goes_lift : forall A (x : outcome A), bad D E U x -> goes D E U (lift x).
Proof. intros A [a| | | |] H s; exact H. Qed.

Lemma goes_throw : forall A e, E e -> goes D E U (throw e : M A).
Proof. intros A e H s. exact H. Qed.

Lemma goes_undef : forall A u, U u -> goes D E U (undef u : M A).
Proof. intros A u H s. exact H. Qed.

Lemma goes_use : forall A (o : option A), U Indeterminate -> goes D E U (use o).
Proof. intros A [a|] H; [apply goes_ret|apply goes_undef, H]. Qed.

Lemma goes_mapM : forall A B (f : A -> M B) l, (forall x, goes D E U (f x)) -> goes D E U (mapM f l).
Proof.
  intros A B f l H. induction l as [|x l IH]; cbn [mapM]; [apply goes_ret|].
  apply goes_bind; [apply H|]. intro y. apply goes_bind; [exact IH|]. intro. apply goes_ret.
Qed.

Lemma goes_iterM : forall S n (f : S -> M S) s, (forall x, goes D E U (f x)) -> goes D E U (iterM n f s).
Proof.
  intros S n f s H. revert s. induction n as [|n IH]; intro s; cbn [iterM]; [apply goes_ret|].
  apply goes_bind; [apply H|exact IH].
Qed.

Lemma goes_fill : forall A cnt (f : A -> M A) v, U OutOfBounds -> (forall x, goes D E U (f x)) -> goes D E U (fill cnt f v).
Proof. intros A cnt f v O H. unfold fill. destruct (cnt =? zlen v); [apply goes_mapM, H|apply goes_undef, O]. Qed.

Lemma goes_array : forall f l, goes D E U (rd_raw_array f l).
Proof. intros. unfold rd_raw_array. apply goes_bind; [apply goes_op|]. intro. apply goes_mapM. intro. apply goes_op. Qed.

Lemma bad_ofold : forall A S (f : A -> S -> outcome S) l s, (forall x s, bad D E U (f x s)) -> bad D E U (ofold f l s).
Proof.
  intros A S f l s H. revert s. induction l as [|x l IH]; intro s; cbn [ofold]; [exact I|].
  apply bad_obind; [apply H|intros; apply IH].
Qed.

Lemma bad_at : forall A (l : list A) i, U OutOfBounds -> bad D E U (at_ l i).
Proof. intros A l i H. unfold at_. destruct (i <? 0); [exact H|]. destruct (nth_error _ _); [exact I|exact H]. Qed.

Lemma bad_hold : forall A c sz n (old : list A), E LengthError -> E BadAlloc -> bad D E U (can_hold c sz n old).
Proof.
  intros A c sz n old H G. unfold can_hold. destruct (_ <? n); [exact H|]. destruct (n <=? _); [exact I|].
  destruct (_ <? _); [exact G|exact I].
Qed.

Lemma bad_resize : forall A c sz (d : A) n old, E LengthError -> E BadAlloc -> bad D E U (resize c sz d n old).
Proof. intros. unfold resize. apply bad_obind; [apply bad_hold; assumption|intros; exact I]. Qed.

Lemma bad_emplace : forall A c sz (x : A) old, E LengthError -> E BadAlloc -> bad D E U (emplace_back c sz x old).
Proof. intros. unfold emplace_back. apply bad_obind; [apply bad_hold; assumption|intros; exact I]. Qed.

Lemma type_out : forall t, (t <=? 0) || (32 <=? t) = true -> ~ 1 <= t <= 31.
Proof. intros t H. apply orb_true_iff in H. destruct H as [H|H]; apply Z.leb_le in H; lia. Qed.

Lemma bad_npe1 : forall t, (~ 1 <= t <= 31 -> E (bad_element_type t)) -> bad D E U (nodes_per_element t).
Proof.
  intros t H. destruct (nodes_per_element t) as [n|e|u| |] eqn:X; [exact I| |exfalso; exact (npe_not_undef t u X)| |exact I].
  - unfold nodes_per_element, assert_supported in X. destruct (_ || _) eqn:T; [injection X as <-; apply H; apply type_out; exact T|]. cbn [obind] in X.
    unfold at_arr in X. destruct (nth_error _ _); discriminate.
  - unfold nodes_per_element, assert_supported in X. destruct (_ || _); [discriminate|]. cbn [obind] in X.
    unfold at_arr in X. destruct (nth_error _ _); discriminate.
Qed.

Lemma bad_npe : forall t, types E -> bad D E U (nodes_per_element t).
Proof. intros t H. apply bad_npe1. apply H. Qed.

Lemma bad_dim : forall t, types E -> bad D E U (get_element_dim t).
Proof.
  intros t H. destruct (get_element_dim t) as [n|e|u| |] eqn:X; [exact I| |exfalso; exact (dim_not_undef t u X)| |exact I].
  - unfold get_element_dim, assert_supported in X. destruct (_ || _) eqn:T; [injection X as <-; apply H; apply type_out; exact T|]. cbn [obind] in X.
    unfold at_arr in X. destruct (nth_error _ _); discriminate.
  - unfold get_element_dim, assert_supported in X. destruct (_ || _); [discriminate|]. cbn [obind] in X.
    unfold at_arr in X. destruct (nth_error _ _); discriminate.
Qed.

Lemma bad_epn : forall p d, U SignedOverflow -> bad D E U (entries_per_node p d).
Proof. intros p d H. unfold entries_per_node. cbv zeta. destruct (_ <? _); [exact H|exact I]. Qed.
End Rules.

Section Load.
Variable c : cfg.
Notation D := (ndebug c = false).

Lemma goes_massert : forall E U b, goes D E U (massert c b).
Proof. intros E U b s. unfold massert. destruct (ndebug c); [exact I|]. destruct b; [exact I|reflexivity]. Qed.

Lemma goes_good : forall E U, goes D E U (assert_good c).
Proof. intros E U s. unfold assert_good. apply goes_massert. Qed.

Ltac go1 :=
  match goal with
  | |- goes _ _ _ (ret _) => apply goes_ret
  | |- goes _ _ _ (op _) => apply goes_op
  | |- goes _ _ _ (throw _) => apply goes_throw
  | |- goes _ _ _ (undef _) => apply goes_undef
  | |- goes _ _ _ (use _) => apply goes_use
  | |- goes _ _ _ (assert_good _) => apply goes_good
  | |- goes _ _ _ (massert _ _) => apply goes_massert
  | |- goes _ _ _ (bind _ _) => apply goes_bind; [|intro]
  | |- goes _ _ _ (lift _) => apply goes_lift
  | |- goes _ _ _ (mapM _ _) => apply goes_mapM; intro
  | |- goes _ _ _ (iterM _ _ _) => apply goes_iterM; intro
  | |- goes _ _ _ (fill _ _ _) => apply goes_fill; [|intro]
  | |- goes _ _ _ (rd_raw_array _ _) => apply goes_array
  | |- bad _ _ _ (resize _ _ _ _ _) => apply bad_resize
  | |- bad _ _ _ (can_hold _ _ _ _) => apply bad_hold
  | |- bad _ _ _ (emplace_back _ _ _ _) => apply bad_emplace
  | |- bad _ _ _ (nodes_per_element _) => apply bad_npe
  | |- bad _ _ _ (get_element_dim _) => apply bad_dim
  | |- bad _ _ _ (entries_per_node _ _) => apply bad_epn
  | |- bad _ _ _ (at_ _ _) => apply bad_at
  | |- bad _ _ _ (ofold _ _ _) => apply bad_ofold; intros
  | |- bad _ _ _ (obind _ _) => apply bad_obind; [|intros ? _]
  | |- bad _ _ _ (Ok _) => exact I
  | |- context [match ?x with _ => _ end] => destruct x
  | _ => progress cbv beta zeta
  end.
Ltac go := repeat go1; auto.

Section Sections.
Variables (E : exn -> Prop) (U : ub -> Prop).
Notation goes := (goes D E U).

Lemma nodes_41_text : forall n, E LengthError -> E BadAlloc -> U SignedOverflow -> U OutOfBounds -> goes (v41_load_nodes_ascii c n).
Proof. intros. unfold v41_load_nodes_ascii, v41_node_block_ascii. go. Qed.

Lemma nodes_41_binary : forall n, E LengthError -> E BadAlloc -> U SignedOverflow -> U OutOfBounds -> goes (v41_load_nodes_binary c n).
Proof. intros. unfold v41_load_nodes_binary, v41_node_block_binary, rd_raw_into. go. Qed.

Lemma nodes_22_text : forall n, E LengthError -> E BadAlloc -> goes (v22_load_nodes_ascii c n).
Proof. intros. unfold v22_load_nodes_ascii, v22_resizes, v22_node_ascii. go. Qed.

Lemma nodes_22_binary : forall n, E LengthError -> E BadAlloc -> U Indeterminate -> goes (v22_load_nodes_binary c n).
Proof. intros. unfold v22_load_nodes_binary, v22_resizes, v22_node_binary. go. Qed.

Lemma elements_41_text : forall n, E LengthError -> E BadAlloc -> types E -> U OutOfBounds -> goes (v41_load_elements_ascii c n).
Proof. intros. unfold v41_load_elements_ascii, v41_element_block_ascii. go. Qed.

Lemma elements_41_binary : forall n, E LengthError -> E BadAlloc -> types E -> goes (v41_load_elements_binary c n).
Proof. intros. unfold v41_load_elements_binary, v41_element_block_binary. go. Qed.

Lemma elements_22_text : forall e en, E LengthError -> E BadAlloc -> types E -> U Indeterminate ->
  goes (v22_load_elements_ascii c e en).
Proof. intros. unfold v22_load_elements_ascii, v22_element_ascii. go. Qed.

Lemma elements_22_loop : forall f N st, E LengthError -> E BadAlloc -> types E -> E (InvalidFormat (str "Inconsistent element count detected!")) ->
  U Indeterminate -> U SignedOverflow -> goes (v22_elements_loop f c N st).
Proof.
  intros f N st H1 H2 H3 H4 H5 H6. revert st. induction f as [|f IH]; intro st; cbn [v22_elements_loop]; [intro s; exact I|].
  unfold v22_element_binary. go.
Qed.

Lemma elements_22_binary : forall e en, E LengthError -> E BadAlloc -> types E -> E (InvalidFormat (str "Inconsistent element count detected!")) ->
  U Indeterminate -> U SignedOverflow -> goes (v22_load_elements_binary c e en).
Proof.
  intros. unfold v22_load_elements_binary. go. intro s. apply elements_22_loop; assumption.
Qed.

Lemma entities_41 : forall en, E LengthError -> E BadAlloc -> U Indeterminate ->
  goes (v41_load_entities_ascii c en) /\ goes (v41_load_entities_binary c en).
Proof.
  intros. unfold v41_load_entities_ascii, v41_load_entities_binary, resize_entities, point_ascii, point_binary, entity_ascii, entity_binary, ints_ascii, ints_binary.
  split; go.
Qed.

Lemma groups_go : forall s, E LengthError -> E BadAlloc -> U Indeterminate -> goes (load_physical_groups c s).
Proof. intros. unfold load_physical_groups, load_group. go. Qed.

Lemma data_go : forall v b e, E LengthError -> E BadAlloc -> E (InvalidFormat (str "Data requires at least 3 int tags.")) ->
  (b = true -> v <> str "4.1" -> v <> str "2.2" -> E (InvalidFormat (str "Unsupported version " ++ v))) -> U Indeterminate ->
  (b = false -> e = true -> U OutOfBounds) -> goes (load_data c v b e).
Proof.
  intros v b e H1 H2 H3 HV H4 H5. unfold load_data, load_data_header, entry_binary, entry_ascii.
  destruct (bytes_eqb v v41s) eqn:V1; [|destruct (bytes_eqb v v22s) eqn:V2]; try (destruct b, e; go).
  all: apply bytes_eqb_neq in V1, V2; apply (HV eq_refl V1 V2).
Qed.

Lemma splines_go : forall s, (nanospline c = true -> E LengthError) -> (nanospline c = true -> E BadAlloc) -> (nanospline c = true -> U Indeterminate) ->
  goes (load_curves c s) /\ goes (load_patches c s).
Proof.
  intros s H1 H2 H3. unfold load_curves, load_patches, load_curve, load_patch. destruct (nanospline c); split; go.
Qed.
End Sections.

Lemma header_go : forall (E : exn -> Prop) (U : ub -> Prop) s,
  (forall v, v <> str "2.2" -> v <> str "4.1" -> E (version_unsupported v)) ->
  (forall d, d <> 8 -> E (data_size_unsupported d)) ->
  (forall v, v = str "2.2" \/ v = str "4.1" -> E (endianness_unsupported v)) -> goes D E U (load_mesh_format s).
Proof.
  intros E U s H1 H2 H3. unfold load_mesh_format. cbv zeta. apply goes_bind; [apply goes_op|]. intro v.
  destruct (bytes_eqb v v22s) eqn:V1; [apply bytes_eqb_eq in V1|apply bytes_eqb_neq in V1];
    (destruct (bytes_eqb v v41s) eqn:V2; [apply bytes_eqb_eq in V2|apply bytes_eqb_neq in V2]); cbn [negb andb];
    try (apply goes_throw; apply H1; assumption).
  all: assert (K : v = str "2.2" \/ v = str "4.1") by tauto; specialize (H3 v K).
  all: apply goes_bind; [apply goes_op|]; intro ft; apply goes_bind; [apply goes_op|]; intro ds.
  1, 3: destruct (to_size ds =? 8) eqn:DS; cbn [negb]; [|apply goes_throw; apply H2; intros ->; discriminate].
  all: go.
Qed.

Lemma bad_impl : forall A (E E' : exn -> Prop) (U U' : ub -> Prop) (o : outcome A), bad D E U o -> (forall e, E e -> E' e) ->
  (forall u, U u -> U' u) -> bad D E' U' o.
Proof. intros A E E' U U' [a| | | |] H H1 H2; cbn [bad] in *; auto. Qed.

Lemma bytes_eqb_false : forall a b, bytes_eqb a b = false -> a <> b.
Proof. intros a b H. apply bytes_eqb_neq. exact H. Qed.

(** Every section. *)
Theorem dispatch_go : forall name spec, goes D
  (fun e => exists w, name = str w /\ refusal c (mesh_format spec) w e)
  (fun u => exists w, name = str w /\ hazard c (mesh_format spec) w u) (dispatch c name spec).
Proof.
  intros name spec.
  assert (ML : memory LengthError) by (left; reflexivity). assert (MB : memory BadAlloc) by (right; reflexivity).
  unfold dispatch.
  destruct (bytes_eqb name (str "$MeshFormat")) eqn:N1; [apply bytes_eqb_eq in N1; subst name|].
  { apply header_go; intros; eexists; (split; [reflexivity|]).
    - apply bad_header_version; assumption.
    - apply bad_header_size; assumption.
    - apply bad_header_order; assumption. }
  destruct (bytes_eqb name (str "$Entities")) eqn:N2; [apply bytes_eqb_eq in N2; subst name|].
  { unfold load_entities. destruct (bytes_eqb (version (mesh_format spec)) v41s) eqn:V1.
    - apply bytes_eqb_eq in V1. apply goes_bind; [|intro; apply goes_ret].
      match goal with |- goes _ ?E ?U _ => destruct (entities_41 E U (entities spec)) as (A & B) end;
        try (eexists; (split; [reflexivity|]); constructor; assumption).
      destruct (_ =? 0); assumption.
    - destruct (bytes_eqb (version (mesh_format spec)) v22s) eqn:V2.
      + apply bytes_eqb_eq in V2. apply goes_throw. eexists. split; [reflexivity|constructor; exact V2].
      + apply goes_ret. }
  destruct (bytes_eqb name (str "$PhysicalNames")) eqn:N3; [apply bytes_eqb_eq in N3; subst name|].
  { apply groups_go; eexists; (split; [reflexivity|]); constructor; assumption. }
  destruct (bytes_eqb name (str "$Nodes")) eqn:N4; [apply bytes_eqb_eq in N4; subst name|].
  { intro s. unfold load_nodes.
    match goal with |- context [v41_load_nodes_ascii c ?x] => generalize x end. intro n. cbv zeta.
    assert (IN : In "$Nodes"%string mesh_sections) by (left; reflexivity).
    destruct (bytes_eqb (version (mesh_format spec)) v41s) eqn:V1.
    - apply bytes_eqb_eq in V1. destruct (file_type (mesh_format spec) =? 0) eqn:F.
      + apply Z.eqb_eq in F. apply goes_bind; [|intro; apply goes_ret].
        apply nodes_41_text; eexists; (split; [reflexivity|]); try (constructor; assumption);
          (apply too_big; [assumption|left; exact V1|exact IN]).
      + apply Z.eqb_neq in F.
        pose proof (nodes_binary_tri (fun u => u = SignedOverflow) c n eq_refl s) as X.
        assert (Y : bad D (fun e => memory e) (fun u => u = SignedOverflow \/ u = OutOfBounds)
          ((n' <- v41_load_nodes_binary c n ;; ret (set_nodes n' spec)) s)).
        { apply goes_bind; [|intro; apply goes_ret]. apply nodes_41_binary; auto. }
        unfold bind in Y |- *. destruct (v41_load_nodes_binary c n s) as [[a s']|e|u| |]; cbn [bad] in *; auto.
        * eexists. split; [reflexivity|]. apply too_big; [exact Y|left; exact V1|exact IN].
        * rewrite X. eexists. split; [reflexivity|]. constructor. exact V1.
    - destruct (bytes_eqb (version (mesh_format spec)) v22s) eqn:V2.
      + apply bytes_eqb_eq in V2. destruct (file_type (mesh_format spec) =? 0) eqn:F;
          [apply Z.eqb_eq in F|apply Z.eqb_neq in F]; (apply goes_bind; [|intro; apply goes_ret]).
        * apply nodes_22_text; eexists; (split; [reflexivity|]); (apply too_big; [assumption|right; exact V2|exact IN]).
        * apply nodes_22_binary; eexists; (split; [reflexivity|]); try (apply too_big; [assumption|right; exact V2|exact IN]).
          apply node_cut_off; assumption.
      + apply bytes_eqb_false in V1, V2. apply goes_bind; [|intro; apply goes_ret]. apply goes_throw. eexists. split; [reflexivity|].
        apply bad_version; [exact V1|exact V2|exact IN]. }
  destruct (bytes_eqb name (str "$Elements")) eqn:N5; [apply bytes_eqb_eq in N5; subst name|].
  { unfold load_elements.
    match goal with |- context [v41_load_elements_ascii c ?x] => generalize x end. intro n. cbv zeta.
    assert (IN : In "$Elements"%string mesh_sections) by (right; left; reflexivity).
    destruct (bytes_eqb (version (mesh_format spec)) v41s) eqn:V1.
    - apply bytes_eqb_eq in V1. apply goes_bind; [|intro; apply goes_ret].
      destruct (file_type (mesh_format spec) =? 0) eqn:F; [apply Z.eqb_eq in F|].
      + apply elements_41_text; try (intros t Ht); eexists; (split; [reflexivity|]); try (apply too_big; [assumption|left; exact V1|exact IN]);
          constructor; auto.
      + apply elements_41_binary; try (intros t Ht); eexists; (split; [reflexivity|]); try (apply too_big; [assumption|left; exact V1|exact IN]);
          constructor; auto.
    - destruct (bytes_eqb (version (mesh_format spec)) v22s) eqn:V2.
      + apply bytes_eqb_eq in V2. apply goes_bind; [|intro; apply goes_ret].
        destruct (file_type (mesh_format spec) =? 0) eqn:F; [|apply Z.eqb_neq in F].
        * apply elements_22_text; try (intros t Ht); eexists; (split; [reflexivity|]); try (apply too_big; [assumption|right; exact V2|exact IN]);
            constructor; auto.
        * apply elements_22_binary; try (intros t Ht); eexists; (split; [reflexivity|]); try (apply too_big; [assumption|right; exact V2|exact IN]);
            constructor; auto.
      + apply bytes_eqb_false in V1, V2. apply goes_throw. eexists. split; [reflexivity|].
        apply bad_version; [exact V1|exact V2|exact IN]. }
  destruct (bytes_eqb name (str "$NodeData")) eqn:N6; [apply bytes_eqb_eq in N6; subst name|].
  { unfold load_node_data. apply goes_bind; [|intro; apply goes_ret]. assert (IN : In "$NodeData"%string data_sections) by (left; reflexivity).
    apply data_go; try (eexists; (split; [reflexivity|]); constructor; assumption);
      [intros B A1 A2; apply Z.ltb_lt in B; eexists; (split; [reflexivity|]); apply bad_data; assumption|discriminate]. }
  destruct (bytes_eqb name (str "$ElementData")) eqn:N7; [apply bytes_eqb_eq in N7; subst name|].
  { unfold load_element_data. apply goes_bind; [|intro; apply goes_ret]. assert (IN : In "$ElementData"%string data_sections) by (right; left; reflexivity).
    apply data_go; try (eexists; (split; [reflexivity|]); constructor; assumption);
      [intros B A1 A2; apply Z.ltb_lt in B; eexists; (split; [reflexivity|]); apply bad_data; assumption|discriminate]. }
  destruct (bytes_eqb name (str "$ElementNodeData")) eqn:N8; [apply bytes_eqb_eq in N8; subst name|].
  { unfold load_element_node_data. apply goes_bind; [|intro; apply goes_ret].
    assert (IN : In "$ElementNodeData"%string data_sections) by (right; right; left; reflexivity).
    apply data_go; try (eexists; (split; [reflexivity|]); constructor; assumption);
      [intros B A1 A2; apply Z.ltb_lt in B; eexists; (split; [reflexivity|]); apply bad_data; assumption|].
    intros F _. apply Z.ltb_ge in F. eexists. split; [reflexivity|]. apply fields_wrap. exact F. }
  destruct (bytes_eqb name (str "$NanoSplineFormat")) eqn:N9.
  { unfold load_nanospline_format. go. }
  destruct (bytes_eqb name (str "$Curves")) eqn:N10; [apply bytes_eqb_eq in N10; subst name|].
  { assert (IN : In "$Curves"%string spline_sections) by (left; reflexivity).
    match goal with |- goes _ ?E ?U _ => destruct (splines_go E U spec) as (A & B) end;
      try (intro; eexists; (split; [reflexivity|]); constructor; assumption). assumption. }
  destruct (bytes_eqb name (str "$Patches")) eqn:N11; [apply bytes_eqb_eq in N11; subst name|].
  { assert (IN : In "$Patches"%string spline_sections) by (right; left; reflexivity).
    match goal with |- goes _ ?E ?U _ => destruct (splines_go E U spec) as (A & B) end;
      try (intro; eexists; (split; [reflexivity|]); constructor; assumption). assumption. }
  apply goes_ret.
Qed.
End Load.

(** ** Whole files *)

Section Whole.
Variable c : cfg.
Notation D := (ndebug c = false).

Lemma forward_only : forall E U flag, goes D E U (forward_to flag).
Proof.
  intros E U flag s. unfold forward_to. match goal with |- context [forward_loop ?n] => generalize n end. intro n.
  generalize (@nil byte) as buf. revert s. induction n as [|n IH]; intros s buf; cbn [forward_loop]; [exact I|].
  destruct (_ || _); [exact I|]. destruct (rd_token buf s). apply IH.
Qed.

(** A failure of the section loop is the failure of a section that it meets. *)
Lemma loop_go : forall b f spec s (E : exn -> Prop) (U : ub -> Prop), reached c b (Main spec s) ->
  (forall name spec s, meets c b name spec s -> bad D E U (dispatch c name spec s)) -> bad D E U (load_loop f c spec s).
Proof.
  intros b f. induction f as [|f IH]; intros spec s E U R H; cbn [load_loop]; [exact I|].
  destruct (eofb s) eqn:EE; [exact I|]. unfold load_step. destruct (rd_token [] s) as [name s1] eqn:ET.
  destruct R as (n & R). destruct (is_section name) eqn:IS; cbn [negb].
  - assert (Mt : meets c b name spec s1) by (exists s; split; [exists n; exact R|split; assumption]).
    specialize (H name spec s1 Mt) as B. unfold bind.
    destruct (dispatch c name spec s1) as [[sp s2]| | | |] eqn:ED; [|exact B|exact B|exact B|exact I].
    pose proof (forward_only E U (end_marker name) s2) as F. unfold forward_to in F |- *.
    destruct (forward_loop _ (end_marker name) [] s2) as [[[] s3]| | | |] eqn:EF; [|exact F|exact F|exact F|exact I].
    cbn [obind fst snd ret]. apply IH; [|exact H]. destruct (forward_steps c sp _ _ _ _ _ EF) as (m & HF).
    assert (S1 : steps c (S m) (Main spec s) (Main sp s3)).
    { econstructor; [|exact HF]. eapply step_section; eassumption. }
    destruct (steps_app c _ _ _ R _ _ S1) as (k & K). exists k. exact K.
  - cbn [obind fst snd]. apply IH; [|exact H].
    assert (S1 : steps c 1 (Main spec s) (Main spec s1)).
    { econstructor; [|constructor]. eapply step_word; eassumption. }
    destruct (steps_app c _ _ _ R _ _ S1) as (k & K). exists k. exact K.
Qed.

Lemma regroup_elements_go : forall (E : exn -> Prop) (U : ub -> Prop) s, E LengthError -> E BadAlloc ->
  Forall element_block_loaded (e_blocks (elements s)) -> bad D E U (regroup_elements c s).
Proof.
  intros E U s H1 H2 H. unfold regroup_elements. cbv zeta. apply bad_obind; [apply bad_hold; assumption|]. intros _ _.
  apply bad_obind; [|intros; exact I].
  assert (G : forall l st, Forall element_block_loaded l -> eg_blocks st <> [] \/ eg_type st = 0 -> bad D E U (ofold regroup_element l st)).
  { induction l as [|b l IH]; intros st HL HS; cbn [ofold]; [exact I|]. inversion_clear HL as [|? ? Hb HL'].
    assert (T : to_size (eb_type b) <> 0).
    { destruct (el_l_data b Hb) as (n & Hn & _). destruct (gmsh_nodes_spec _ _ Hn) as (_ & _ & A).
      unfold to_size. rewrite Z.mod_small; unfold two64; lia. }
    unfold regroup_element. cbv zeta.
    destruct (negb (to_size (eb_dim b) =? eg_dim st) || negb (to_size (eb_tag b) =? eg_tag st) || negb (to_size (eb_type b) =? eg_type st)) eqn:Q.
    - cbn [eg_blocks obind]. apply IH; [exact HL'|]. left. discriminate.
    - destruct (eg_blocks st) as [|cur others] eqn:EB; cbn [obind].
      + exfalso. destruct HS as [HS|HS]; [contradiction|]. apply orb_false_iff in Q. destruct Q as (_ & Q).
        apply negb_false_iff, Z.eqb_eq in Q. rewrite HS in Q. contradiction.
      + apply IH; [exact HL'|]. left. discriminate. }
  apply G; [exact H|]. right. reflexivity.
Qed.

Lemma regroup_nodes_go : forall (E : exn -> Prop) (U : ub -> Prop) s, E LengthError -> E BadAlloc -> U OutOfBounds -> (ndebug c = true -> U EmptyBack) ->
  Forall element_block_loaded (e_blocks (elements s)) -> bad D E U (regroup_nodes c s).
Proof.
  intros E U s H1 H2 H3 H4 H. unfold regroup_nodes. cbv zeta. apply bad_obind; [apply bad_hold; assumption|]. intros _ _.
  apply bad_obind.
  { generalize (fun _ : Z => (0, 0)). induction H as [|b l Hb Hl IH]; intro a; cbn [ofold]; [exact I|].
    apply bad_obind; [|intros; apply IH]. unfold mark_block.
    destruct (el_l_data b Hb) as (n & Hn & _). apply npe_ok in Hn. rewrite Hn. cbn [obind].
    apply bad_ofold. intros i x. apply bad_ofold. intros j y. apply bad_obind; [apply bad_at; exact H3|]. intros z _.
    unfold mark. cbv zeta. destruct (_ <=? _); [exact H3|exact I]. }
  intros a _. apply bad_obind; [|intros; exact I]. apply bad_ofold. intros b st. apply bad_ofold. intros i st'.
  unfold regroup_node. apply bad_obind; [apply bad_at; exact H3|]. intros t _. cbv zeta.
  destruct (_ <=? _); [exact H3|]. destruct (a _) as [dim tag].
  match goal with |- bad _ _ _ (match rg_blocks ?x with _ => _ end) => destruct (rg_blocks x) end.
  - destruct (ndebug c); [exact (H4 eq_refl)|reflexivity].
  - repeat (apply bad_obind; [apply bad_at; exact H3|intros ? _]). exact I.
Qed.

Theorem load_go : forall b, bad D
  (fun e => (exists w spec s, meets c b (str w) spec s /\ refusal c (mesh_format spec) w e) \/
            exists raw, ends_with c b raw /\ v22 (mesh_format raw) /\ memory e)
  (fun u => (exists w spec s, meets c b (str w) spec s /\ hazard c (mesh_format spec) w u) \/
            exists raw, ends_with c b raw /\ v22 (mesh_format raw) /\ (u = OutOfBounds \/ u = EmptyBack /\ ndebug c = true))
  (load_msh c b).
Proof.
  intro b. unfold load_msh, load_msh_fuel. apply bad_obind.
  - apply (loop_go b); [exists O; constructor|]. intros name spec s Mt.
    eapply bad_impl; [apply dispatch_go| |]; cbv beta.
    + intros e (w & -> & Hw). left. exists w, spec, s. split; assumption.
    + intros u (w & -> & Hw). left. exists w, spec, s. split; assumption.
  - intros [raw s] EL. cbn [fst]. destruct (loop_steps _ _ _ _ _ _ EL) as (n & R & EE).
    assert (EW : ends_with c b raw) by (exists s; split; [exists n; exact R|exact EE]).
    pose proof (spec_inv_ends c b raw EW) as SI. unfold post_process.
    destruct (bytes_eqb (version (mesh_format raw)) v22s) eqn:V; [|exact I]. apply bytes_eqb_eq in V.
    assert (P : forall e, memory e -> (exists w spec s, meets c b (str w) spec s /\ refusal c (mesh_format spec) w e) \/
            exists raw, ends_with c b raw /\ v22 (mesh_format raw) /\ memory e).
    { intros e He. right. exists raw. split; [exact EW|split; [exact V|exact He]]. }
    pose proof (P _ (or_introl eq_refl)) as PL. pose proof (P _ (or_intror eq_refl)) as PB.
    apply bad_obind.
    + apply regroup_nodes_go; [exact PL|exact PB| | |apply SI].
      * right. exists raw. split; [exact EW|split; [exact V|left; reflexivity]].
      * intro N. right. exists raw. split; [exact EW|split; [exact V|right; split; [reflexivity|exact N]]].
    + intros s' ES. apply regroup_elements_go; [exact PL|exact PB|].
      assert (EQ : elements s' = elements raw).
      { unfold regroup_nodes in ES. cbv zeta in ES. destruct (can_hold _ _ _ _) as [[]| | | |]; try discriminate. cbn [obind] in ES.
        destruct (ofold (mark_block _ _) _ _); try discriminate. cbn [obind] in ES.
        destruct (ofold _ (n_blocks (nodes raw)) _); try discriminate. cbn [obind] in ES. injection ES as <-. reflexivity. }
      rewrite EQ. apply SI.
Qed.
End Whole.

(** ** Writing *)

Definition wbad (D : Prop) (E : exn -> Prop) (U : ub -> Prop) (w : W) : Prop := snd w <> Diverge /\ bad D E U (snd w).

Section Write.
Variables (D : Prop) (E : exn -> Prop) (U : ub -> Prop).
Hypotheses (UO : U OutOfBounds) (US : U SignedOverflow) (UN : U NegativeCount).

Lemma wbad_out : forall b, wbad D E U (out b).
Proof. split; [discriminate|exact I]. Qed.
Lemma wbad_ret : wbad D E U wret.
Proof. split; [discriminate|exact I]. Qed.
Lemma wbad_seq : forall a b, wbad D E U a -> wbad D E U b -> wbad D E U (a +++ b).
Proof. intros [x [[]| | | |]] b A B; [exact B|exact A|exact A|exact A|exact A]. Qed.
Lemma wbad_for : forall A (l : list A) f, (forall x, wbad D E U (f x)) -> wbad D E U (wfor l f).
Proof. intros A l f H. induction l as [|x l IH]; cbn [wfor]; [apply wbad_ret|]. apply wbad_seq; [apply H|exact IH]. Qed.
Lemma wbad_at : forall A (l : list A) i f, (forall x, In x l -> wbad D E U (f x)) -> wbad D E U (wlet (at_ l i) f).
Proof.
  intros A l i f H. unfold at_. destruct (i <? 0); [split; [discriminate|exact UO]|].
  destruct (nth_error _ _) eqn:X; [apply H; exact (nth_error_In _ _ X)|split; [discriminate|exact UO]].
Qed.
Lemma wbad_epn : forall p d f, (forall x, wbad D E U (f x)) -> wbad D E U (wlet (entries_per_node p d) f).
Proof. intros p d f H. unfold entries_per_node. cbv zeta. destruct (_ <? _); [split; [discriminate|exact US]|apply H]. Qed.
Lemma wbad_npe : forall t f, (~ 1 <= t <= 31 -> E (bad_element_type t)) -> (forall x, wbad D E U (f x)) -> wbad D E U (wlet (nodes_per_element t) f).
Proof.
  intros t f EU H. pose proof (bad_npe1 D E U t EU) as B. destruct (nodes_per_element t) as [n|e|u| |] eqn:X; cbn [wlet].
  - apply H.
  - split; [discriminate|exact B].
  - split; [discriminate|exact B].
  - split; [discriminate|exact B].
  - exfalso. unfold nodes_per_element, assert_supported in X. destruct (_ || _); [discriminate|]. cbn [obind] in X.
    unfold at_arr in X. destruct (nth_error _ _); discriminate.
Qed.
Lemma wbad_array : forall k v n, wbad D E U (write_array k v n).
Proof.
  intros k v n. unfold write_array. destruct (_ <? n); [split; [discriminate|exact UN]|].
  destruct (_ <? n); [split; [discriminate|exact UO]|apply wbad_out].
Qed.
Lemma wbad_throw : forall b e, E e -> wbad D E U (b, Throw e).
Proof. intros b e H. split; [discriminate|exact H]. Qed.
End Write.

Section Save.
Variables (c : cfg) (s : MshSpec).
Notation D := (ndebug c = false /\ nanospline c = true).
Variables (E : exn -> Prop) (U : ub -> Prop).
Hypotheses (UO : U OutOfBounds) (US : U SignedOverflow) (UN : U NegativeCount)
  (EU : forall b, In b (e_blocks (elements s)) -> ~ 1 <= eb_type b <= 31 -> E (bad_element_type (eb_type b)))
  (EV : version (mesh_format s) <> str "4.1" -> version (mesh_format s) <> str "2.2" ->
    E (UnsupportedFeature (str "Unsupported MSH version: " ++ version (mesh_format s))))
  (EI : version (mesh_format s) <> str "4.1" -> version (mesh_format s) <> str "2.2" ->
    E (InvalidFormat (str "Unsupported version " ++ version (mesh_format s)))).

Ltac w1 :=
  match goal with
  | |- wbad _ _ _ (out _) => apply wbad_out
  | |- wbad _ _ _ wret => apply wbad_ret
  | |- wbad _ _ _ (_ +++ _) => apply wbad_seq
  | |- wbad _ _ _ (wfor _ _) => apply wbad_for; intro
  | |- wbad _ _ _ (wlet (at_ _ _) _) => apply wbad_at; [exact UO|intros ? ?]
  | |- wbad _ _ _ (wlet (entries_per_node _ _) _) => apply wbad_epn; [exact US|intro]
  | |- wbad _ _ _ (wlet (nodes_per_element _) _) => apply wbad_npe; [apply EU; assumption|intro]
  | |- wbad _ _ _ (write_array _ _ _) => apply wbad_array; [exact UO|exact UN]
  | |- wbad _ _ _ (_, Throw _) => apply wbad_throw; [first [apply EV|apply EI]; apply bytes_eqb_neq; assumption]
  | |- context [match ?x with _ => _ end] => destruct x eqn:?
  | _ => progress cbv beta zeta
  end.
Ltac w := repeat w1.

Lemma wbad_splines : nanospline c = true -> wbad D E U (save_curves c s) /\ wbad D E U (save_patches c s).
Proof.
  intro N.
  assert (WA : forall b, wbad D E U (wassert c b)).
  { intro b. unfold wassert. destruct (ndebug c); [apply wbad_ret|]. destruct b; [apply wbad_ret|].
    split; [discriminate|split; [reflexivity|exact N]]. }
  unfold save_curves, save_patches, save_curve, save_patch. split; repeat (first [apply WA|w1]).
Qed.

Theorem save_go : wbad D E U (save_msh c s).
Proof.
  unfold save_msh.
  apply wbad_seq; [unfold save_mesh_format; w|]. apply wbad_seq; [unfold save_physical_groups; w|].
  apply wbad_seq.
  { unfold save_entities, v41_save_entities_ascii, v41_save_entities_binary, save_point_ascii, save_point_binary, save_entity_ascii,
      save_entity_binary, out_ints, out_ints_raw. w. }
  apply wbad_seq.
  { unfold save_nodes, v41_save_nodes_ascii, v41_save_nodes_binary, v22_save_nodes_ascii, v22_save_nodes_binary, v41_save_node_block_ascii,
      v41_save_node_block_binary, v22_save_node_block_ascii, v22_save_node_block_binary. w. }
  apply wbad_seq.
  { unfold save_elements, v41_save_elements_ascii, v41_save_elements_binary, v22_save_elements_ascii, v22_save_elements_binary,
      v41_save_element_block_ascii, v41_save_element_block_binary, v22_save_element_block_ascii, v22_save_element_block_binary. w. }
  do 3 (apply wbad_seq; [unfold save_node_data, save_element_data, save_element_node_data, save_data_sections, save_data, save_data_header,
    save_entry_binary, save_entry_ascii; w|]).
  pose proof wbad_splines as WS. generalize dependent D. intros D0 WS.
  destruct (nanospline c); [|apply wbad_ret]. destruct (WS eq_refl) as (A & B).
  apply wbad_seq; [unfold save_nanospline_format; w|]. apply wbad_seq; w; assumption.
Qed.
End Save.

(** ** Every hazard is real *)

Lemma mapM_op : forall A B (f : A -> istream -> B * istream) l s, exists r, mapM (fun o => op (f o)) l s = Ok r.
Proof.
  intros A B f l. induction l as [|x l IH]; intro s; cbn [mapM]; [eexists; reflexivity|].
  unfold bind at 1. unfold op at 1. destruct (f x s) as [y s1]. destruct (IH s1) as ([ys s2] & E).
  eexists. unfold bind. rewrite E. reflexivity.
Qed.

Definition big (n : bool) : cfg := {| ndebug := true; nanospline := n; mem := 2 ^ 40 |}.

Lemma bind_op : forall A B (f : istream -> A * istream) (g : A -> M B) s a s1, f s = (a, s1) -> bind (op f) g s = g a s1.
Proof. intros A B f g s a s1 H. unfold bind, op. rewrite H. reflexivity. Qed.
Lemma bind_lift : forall A B (x : outcome A) (g : A -> M B) s a, x = Ok a -> bind (lift x) g s = g a s.
Proof. intros A B x g s a ->. reflexivity. Qed.
Lemma bind_run : forall A B (m : M A) (g : A -> M B) s a s1, m s = Ok (a, s1) -> bind m g s = g a s1.
Proof. intros A B m g s a s1 H. unfold bind. rewrite H. reflexivity. Qed.

Lemma coordinates_wrap_occurs : forall n s s1 s2 s3 s4, rd_int (nb_dim nb_default) s = (1073741821, s1) ->
  rd_int (nb_tag nb_default) s1 = (1, s2) -> rd_int (nb_parametric nb_default) s2 = (1, s3) -> rd_size (nb_num nb_default) s3 = (17179869184, s4) ->
  v41_node_block_ascii (big n) nb_default s = Undef OutOfBounds.
Proof.
  intros n s s1 s2 s3 s4 E1 E2 E3 E4. unfold v41_node_block_ascii.
  erewrite bind_op by exact E1. erewrite bind_op by exact E2. erewrite bind_op by exact E3. erewrite bind_op by exact E4.
  erewrite bind_run by reflexivity. erewrite bind_lift by reflexivity.
  match goal with |- bind (mapM ?f ?l) _ _ = _ => destruct (mapM_op _ _ (fun o => rd_size o) l s4) as ([tags s5] & EM) end.
  erewrite bind_run by exact EM. do 2 erewrite bind_run by reflexivity. erewrite bind_lift by reflexivity.
  erewrite bind_lift by reflexivity. reflexivity.
Qed.

Lemma tag_bytes_occurs : forall n f st s s1 s2 s3, vb_done st = 0 -> vb_tags st = [] -> vb_ids st = [] ->
  rd_raw_int_opt None s = (Some 15, s1) -> rd_raw_int_opt None s1 = (Some 1, s2) -> rd_raw_int_opt None s2 = (Some 536870912, s3) ->
  v22_elements_loop (S f) (big n) 1 st s = Undef SignedOverflow.
Proof.
  intros n f st s s1 s2 s3 D1 D2 D3 E1 E2 E3. cbn [v22_elements_loop]. rewrite D1. cbv iota. rewrite D2, D3.
  change (0 =? 1) with false. cbv iota.
  erewrite bind_op by exact E1. erewrite bind_op by exact E2. erewrite bind_op by exact E3.
  erewrite bind_run by reflexivity. erewrite bind_lift by reflexivity.
  erewrite bind_run by reflexivity. erewrite bind_lift by reflexivity. erewrite bind_lift by reflexivity.
  erewrite bind_run by reflexivity. cbv zeta.
  change (Z.to_nat (Z.min (to_size 1) (1 - 0 + 1))) with 1%nat. cbn [iterM]. unfold v22_element_binary.
  unfold bind at 1 2 3. unfold op. destruct (rd_raw_int_opt None s3). reflexivity.
Qed.

(** A file ends in one way. *)
Lemma one_end : forall c b r1 r2, ends_with c b r1 -> ends_with c b r2 -> r1 = r2.
Proof.
  assert (F : forall c b r, ends_with c b r -> exists s f, load_loop f c spec_default (opened b) = Ok (r, s)).
  { intros c b r (s & (n & R) & E).
    destruct (finishes_steps c n _ _ R (Ok (r, s))) as (N & f & L); [|exists s, f; exact L].
    split; [discriminate|]. exists 1%nat. cbn [run load_loop]. rewrite E. reflexivity. }
  intros c b r1 r2 H1 H2. destruct (F _ _ _ H1) as (s1 & f1 & L1). destruct (F _ _ _ H2) as (s2 & f2 & L2).
  pose proof (load_ok_mono _ _ _ _ _ L1 ltac:(discriminate) (f1 + f2)%nat ltac:(lia)) as M1.
  pose proof (load_ok_mono _ _ _ _ _ L2 ltac:(discriminate) (f1 + f2)%nat ltac:(lia)) as M2.
  rewrite M1 in M2. congruence.
Qed.
