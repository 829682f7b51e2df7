(** The element tables. *)

From Verif Require Import Model.Elem Spec.Gmsh.

Lemma tables : forall t,
  nodes_per_element t = match gmsh_nodes t with Some n => Ok n | None => Throw (UnsupportedFeature (str "Unsupported element type: " ++ show_Z t)) end /\
  get_element_dim t = match gmsh_dim t with Some d => Ok d | None => Throw (UnsupportedFeature (str "Unsupported element type: " ++ show_Z t)) end.
Proof.
  intro t. unfold nodes_per_element, get_element_dim, assert_supported.
  destruct ((t <=? 0) || (32 <=? t)) eqn:E.
  - cbn [obind].
    assert (F : gmsh_family t = None).
    { destruct t as [|p|p]; try reflexivity.
      do 5 (try match goal with q : positive |- _ => destruct q end); try reflexivity; discriminate E. }
    unfold gmsh_nodes, gmsh_dim. rewrite F. split; reflexivity.
  - apply orb_false_iff in E. destruct E as [E1 E2]. apply Z.leb_gt in E1. apply Z.leb_gt in E2.
    destruct t as [|p|p]; try lia.
    do 5 (try match goal with q : positive |- _ => destruct q end); try (exfalso; lia);
      split; reflexivity.
Qed.

Lemma npe_ok : forall t n, nodes_per_element t = Ok n <-> gmsh_nodes t = Some n.
Proof.
  intros t n. destruct (tables t) as [-> _]. destruct (gmsh_nodes t) as [m|]; split; intro H;
    try discriminate; injection H as <-; reflexivity.
Qed.

Lemma dim_ok : forall t d, get_element_dim t = Ok d <-> gmsh_dim t = Some d.
Proof.
  intros t d. destruct (tables t) as [_ ->]. destruct (gmsh_dim t) as [m|]; split; intro H;
    try discriminate; injection H as <-; reflexivity.
Qed.

Lemma npe_not_undef : forall t u, nodes_per_element t <> Undef u.
Proof. intros t u. destruct (tables t) as [-> _]. destruct (gmsh_nodes t); discriminate. Qed.

Lemma dim_not_undef : forall t u, get_element_dim t <> Undef u.
Proof. intros t u. destruct (tables t) as [_ ->]. destruct (gmsh_dim t); discriminate. Qed.

Lemma nodes_dim : forall t n, gmsh_nodes t = Some n -> exists d, gmsh_dim t = Some d.
Proof. intros t n. unfold gmsh_nodes, gmsh_dim. destruct (gmsh_family t) as [f|]; [eexists; reflexivity|discriminate]. Qed.
