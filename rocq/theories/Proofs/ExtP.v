(** The nanospline sections when the extension is not compiled in. *)

From Verif Require Import Model.Save Proofs.Hoare.

Ltac post_frame tac :=
  repeat first
    [ apply post_throw | apply post_undef
    | apply post_ret; tac
    | apply post_bind_any; intro
    | match goal with |- post (if ?b then _ else _) _ => destruct b end ].

Definition no_splines (s : MshSpec) : Prop := curves s = [] /\ patches s = [].

Lemma dispatch_no_splines : forall c, nanospline c = false ->
  forall buf spec, no_splines spec -> post (dispatch c buf spec) no_splines.
Proof.
  intros c Hn buf spec H.
  assert (T : no_splines spec) by exact H.
  unfold dispatch, load_mesh_format, load_entities, load_physical_groups, load_nodes,
    load_elements, load_node_data, load_element_data, load_element_node_data,
    load_nanospline_format, load_curves, load_patches. rewrite Hn.
  post_frame ltac:(exact T).
Qed.

Lemma post_process_no_splines : forall c s s', post_process c s = Ok s' ->
  curves s' = curves s /\ patches s' = patches s.
Proof.
  intros c s s' E. unfold post_process in E.
  destruct (bytes_eqb (version (mesh_format s)) v22s); [|injection E as <-; split; reflexivity].
  unfold regroup_nodes in E.
  destruct (can_hold c sz_size _ (@nil Z)); try discriminate. cbn [obind] in E.
  destruct (ofold (mark_block _ _) _ _) as [ar| | | |]; try discriminate. cbn [obind] in E.
  destruct (ofold _ (n_blocks (nodes s)) _) as [st| | | |]; try discriminate. cbn [obind] in E.
  unfold regroup_elements in E.
  destruct (can_hold c sz_ElementBlock _ (@nil Z)); try discriminate. cbn [obind] in E.
  destruct (ofold regroup_element _ _) as [st2| | | |]; try discriminate. cbn [obind] in E.
  injection E as <-. split; reflexivity.
Qed.

Lemma load_no_splines : forall c b s, nanospline c = false -> load_msh c b = Ok s ->
  curves s = [] /\ patches s = [].
Proof.
  intros c b s Hn E.
  destruct (load_msh_inv c no_splines (dispatch_no_splines c Hn) (conj eq_refl eq_refl) b s E)
    as (raw & [Hc Hp] & EP).
  destruct (post_process_no_splines c raw s EP) as [-> ->]. split; assumption.
Qed.

(** The file does not depend on the spline part. *)
Lemma save_no_splines : forall c s v cs ps, nanospline c = false ->
  save_msh c (set_ns_version v (set_curves cs (set_patches ps s))) = save_msh c s.
Proof. intros c s v cs ps Hn. unfold save_msh. rewrite Hn. reflexivity. Qed.
