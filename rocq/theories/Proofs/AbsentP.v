(** Sections that are not there leave the spec alone. *)

From Verif Require Import Model.LoadMsh Spec.Order Spec.Absent Proofs.BytesP Proofs.Hoare Proofs.ExtP Proofs.File22P Proofs.LoadedP Proofs.OrderP.

Definition only {A} (f : MshSpec -> A) (ms : list bytes) : Prop :=
  forall c name spec, ~ In name ms -> post (dispatch c name spec) (fun r => f r = f spec).

Lemma absent_reached : forall A (f : MshSpec -> A) ms c b, only f ms -> (forall m, In m ms -> ~ occurs m b) ->
  forall p, reached c b p -> f (spec_of p) = f spec_default.
Proof.
  intros A f ms c b HO HN. apply (reached_inv c b (fun sp => f sp = f spec_default)); [reflexivity|].
  intros name spec s spec' s' HM _ HI ED. rewrite <- HI. refine (HO c name spec _ _ _ _ ED).
  intro K. apply (HN name K). destruct (met_there _ _ _ _ _ HM) as (u & U). exists u, (rest s). exact U.
Qed.

Ltac only_go :=
  intros c name spec N; unfold dispatch;
  repeat match goal with |- post (if bytes_eqb ?n ?m then _ else _) _ =>
    let Q := fresh "Q" in destruct (bytes_eqb n m) eqn:Q;
    [try (exfalso; apply N; apply bytes_eqb_eq in Q; rewrite Q; cbn [In]; tauto)|clear Q] end;
  unfold load_mesh_format, load_entities, load_physical_groups, load_nodes, load_elements,
    load_node_data, load_element_data, load_element_node_data,
    load_nanospline_format, load_curves, load_patches; cbv zeta;
  post_frame ltac:(reflexivity).

Lemma only_format : only mesh_format [str "$MeshFormat"]. Proof. only_go. Qed.
Lemma only_groups : only physical_groups [str "$PhysicalNames"]. Proof. only_go. Qed.
Lemma only_nodes : only nodes [str "$Nodes"]. Proof. only_go. Qed.
Lemma only_elements : only elements [str "$Elements"]. Proof. only_go. Qed.
Lemma only_entities : only entities [str "$Entities"; str "$Elements"]. Proof. only_go. Qed.
Lemma only_node_data : only node_data [str "$NodeData"]. Proof. only_go. Qed.
Lemma only_element_data : only element_data [str "$ElementData"]. Proof. only_go. Qed.
Lemma only_element_node_data : only element_node_data [str "$ElementNodeData"]. Proof. only_go. Qed.
Lemma only_ns : only ns_version [str "$NanoSplineFormat"]. Proof. only_go. Qed.
Lemma only_curves : only curves [str "$Curves"]. Proof. only_go. Qed.
Lemma only_patches : only patches [str "$Patches"]. Proof. only_go. Qed.

(** Regrouping changes nothing but nodes, elements and their entities. *)
Lemma post_rest : forall c raw s, post_process c raw = Ok s ->
  physical_groups s = physical_groups raw /\ entities s = entities raw /\
  ns_version s = ns_version raw /\ curves s = curves raw /\ patches s = patches raw.
Proof.
  intros c raw s HP. unfold post_process in HP. destruct (bytes_eqb _ _).
  - destruct (regroup_nodes c raw) as [m| | | |] eqn:EN; try discriminate. cbn [obind] in HP.
    unfold regroup_nodes, regroup_elements in EN, HP. cbv zeta in EN, HP.
    repeat match type of HP with obind ?x _ = _ => destruct x; cbn [obind] in HP; try discriminate end.
    repeat match type of EN with obind ?x _ = _ => destruct x; cbn [obind] in EN; try discriminate end.
    injection HP as <-. injection EN as <-. repeat split.
  - injection HP as <-. repeat split.
Qed.

Lemma absent_end : forall A (f : MshSpec -> A) ms c b s, only f ms -> (forall raw, post_process c raw = Ok s -> f s = f raw) ->
  load_msh c b = Ok s -> (forall m, In m ms -> ~ occurs m b) -> f s = f spec_default.
Proof.
  intros A f ms c b s HO HP HL HN. destruct (load_ends c b s HL) as (raw & (s0 & R & _) & E). rewrite (HP raw E).
  exact (absent_reached A f ms c b HO HN _ R).
Qed.

Lemma one : forall m b, ~ occurs m b -> forall x, In x [m] -> ~ occurs x b.
Proof. intros m b H x [<-|[]]. exact H. Qed.
Lemma two : forall m m' b, ~ occurs m b -> ~ occurs m' b -> forall x, In x [m; m'] -> ~ occurs x b.
Proof. intros m m' b H H' x [<-|[<-|[]]]; assumption. Qed.

Fixpoint occursb (p b : bytes) : bool :=
  starts_with p b || match b with [] => false | _ :: b' => occursb p b' end.

Lemma occursb_true : forall p b, occurs p b -> occursb p b = true.
Proof.
  intros p b (u & v & ->). induction u as [|x u IH]; cbn [app].
  - destruct (p ++ v) eqn:E; cbn [occursb]; rewrite <- E, starts_app; reflexivity.
  - cbn [occursb]. rewrite IH. apply orb_true_r.
Qed.

Lemma post_no_nodes : forall c raw s, post_process c raw = Ok s -> nodes raw = n_default -> nodes s = n_default.
Proof.
  intros c raw s HP N. unfold post_process in HP. destruct (bytes_eqb _ _); [|injection HP as <-; exact N].
  destruct (regroup_nodes c raw) as [m| | | |] eqn:EN; try discriminate. cbn [obind] in HP.
  assert (M : nodes m = n_default).
  { unfold regroup_nodes in EN. cbv zeta in EN. rewrite N in EN.
    destruct (can_hold _ _ _ _); cbn [obind] in EN; try discriminate.
    destruct (ofold (mark_block _ _) _ _); cbn [obind] in EN; try discriminate.
    cbn [n_blocks n_default ofold obind] in EN. injection EN as <-. reflexivity. }
  unfold regroup_elements in HP. cbv zeta in HP.
  repeat match type of HP with obind ?x _ = _ => destruct x; cbn [obind] in HP; try discriminate end.
  injection HP as <-. exact M.
Qed.

Lemma post_no_elements : forall c raw s, post_process c raw = Ok s -> elements raw = e_default -> elements s = e_default.
Proof.
  intros c raw s HP N. unfold post_process in HP. destruct (bytes_eqb _ _); [|injection HP as <-; exact N].
  destruct (regroup_nodes c raw) as [m| | | |] eqn:EN; try discriminate. cbn [obind] in HP.
  assert (M : elements m = e_default).
  { unfold regroup_nodes in EN. cbv zeta in EN.
    repeat match type of EN with obind ?x _ = _ => destruct x; cbn [obind] in EN; try discriminate end.
    injection EN as <-. exact N. }
  unfold regroup_elements in HP. cbv zeta in HP. rewrite M in HP.
  destruct (can_hold _ _ _ _); cbn [obind] in HP; try discriminate.
  cbn [e_blocks e_default ofold obind] in HP. injection HP as <-. reflexivity.
Qed.
