(** Specs holding NaN and infinities. *)

From Verif Require Import Model.Save Spec.NonFinite Tests.Examples Tests.ExamplesRt22.

Definition nan : dbl := 9221120237041090560.
Definition minus_inf : dbl := 18442240474082181120.

(** ex_spec with a NaN and an infinite coordinate. *)
Definition ex_bad (v : bytes) (ascii : bool) : MshSpec :=
  set_nodes
    {| n_num_blocks := 2; n_num_nodes := 4; n_min := 1; n_max := 7;
       n_blocks :=
         [ {| nb_dim := 2; nb_tag := 1; nb_parametric := 1; nb_num := 1; nb_tags := [7];
              nb_data := [d01; d15; dm2; d13; minus_inf] |};
           {| nb_dim := 1; nb_tag := 5; nb_parametric := 0; nb_num := 3; nb_tags := [1; 2; 3];
              nb_data := [0; nan; 0; d15; 0; 0; 0; d15; dm2] |} ] |} (ex_spec v ascii).

Lemma ex_bad_text : forall v, finite_part true (ex_bad v true) = ex_spec v true.
Proof. intro v. unfold finite_part, ex_bad, ex_spec, set_nodes. cbn. reflexivity. Qed.

Lemma ex_bad_written : forall c v a, nanospline c = true -> Forall size_ok (written41 c a (ex_bad v a)) /\ Forall size_ok (text_doubles a (ex_bad v a)).
Proof.
  intros c v a N. unfold written41, other_doubles, text_doubles. rewrite N.
  split; destruct a; cbn; ex_forall; vm_compute; intuition discriminate.
Qed.

Lemma ex_bad_41 : forall nd a, consistent41 {| ndebug := nd; nanospline := true; mem := 1000000 |} a (finite_part a (ex_bad (str "4.1") a)).
Proof.
  intros nd a. destruct a; [rewrite ex_bad_text; apply ex_spec_41|].
  pose proof (ex_spec_41 nd false) as [H1 H2 H3 [K1 K2 K3 K4 K5 K6 K7 K8] H5 H6].
  split; [exact H1|exact H2|exact H3| |exact H5|intro Q; destruct (H6 Q) as [S1 S2 S3]; split; assumption].
  split; [exact K1|exact K2| |exact K4|exact K5|exact K6|exact K7|exact K8].
  intros _. split; cbn; ex_ok.
Qed.

Lemma ex_bad_22 : forall nd a, consistent22 {| ndebug := nd; nanospline := true; mem := 1000000 |} a (finite_part a (ex_bad (str "2.2") a)).
Proof.
  intros nd a. destruct a; [rewrite ex_bad_text; apply ex_spec_22|].
  pose proof (ex_spec_22 nd false) as [H1 H2 H3 H4 H5 H6 H7 H8 H9 H10 H11 H12 H13 H14 H15].
  split; [exact H1|exact H2|exact H3|exact H4|reflexivity| |exact H7|exact H8| | |exact H11|exact H12|exact H13|exact H14|intro Q; destruct (H15 Q) as [S1 S2 S3]; split; assumption].
  - intros _. split; cbn [finite_part ex_bad set_nodes nodes round_nodes n_num_blocks n_blocks n_num_nodes map]; ex_ok.
  - intros e t He Ht. destruct (H9 e t He Ht) as (n1 & n2 & I1 & I2 & B).
    assert (G : forall n, In n (mesh_nodes (nodes (ex_spec (str "2.2") false))) ->
      exists n', In n' (mesh_nodes (nodes (finite_part false (ex_bad (str "2.2") false)))) /\ n_tag n' = n_tag n).
    { intros n Hn. cbn in Hn. repeat destruct Hn as [<-|Hn]; [| | | |destruct Hn].
      - eexists. split; [left; reflexivity|reflexivity].
      - eexists. split; [right; left; reflexivity|reflexivity].
      - eexists. split; [right; right; left; reflexivity|reflexivity].
      - eexists. split; [right; right; right; left; reflexivity|reflexivity]. }
    destruct (G n1 I1) as (m1 & J1 & E1). destruct (G n2 I2) as (m2 & J2 & E2).
    exists m1, m2. rewrite E1, E2. auto.
  - intros n1 n2 I1 I2. cbn in I1, I2.
    repeat destruct I1 as [<-|I1]; try destruct I1; repeat destruct I2 as [<-|I2]; try destruct I2; split; vm_compute; congruence.
Qed.

(** ex_spec with an infinite real tag. *)
Definition ex_bad_tag (v : bytes) (ascii : bool) : MshSpec :=
  set_node_data [ {| d_header := {| string_tags := []; real_tags := [minus_inf]; int_tags := [0; 1; 1] |};
                     d_entries := [ {| de_tag := 7; de_npe := 0; de_data := [dm2] |} ] |} ] (ex_spec v ascii).

Lemma ex_bad_tag_41 : forall nd a, consistent41 {| ndebug := nd; nanospline := true; mem := 1000000 |} a (finite_part a (ex_bad_tag (str "4.1") a)).
Proof.
  intros nd a.
  assert (E : set_node_data [] (finite_part a (ex_bad_tag (str "4.1") a)) = set_node_data [] (ex_spec (str "4.1") a)).
  { destruct a; reflexivity. }
  set (s := finite_part a (ex_bad_tag (str "4.1") a)) in *.
  assert (N : Forall (data_ok {| ndebug := nd; nanospline := true; mem := 1000000 |} a false) (node_data s)).
  { unfold s. destruct a; cbn; ex_forall; split; cbn; ex_ok; exists 0, 1, []; split; [reflexivity|ex_ok|reflexivity|ex_ok]. }
  pose proof (ex_spec_41 nd a) as [H1 H2 H3 [K1 K2 K3 K4 K5 K6 K7 K8] H5 H6].
  assert (F : forall A (f : MshSpec -> A), f (set_node_data [] s) = f (set_node_data [] (ex_spec (str "4.1") a)))
    by (intros; rewrite E; reflexivity).
  pose proof (F _ mesh_format) as F1. pose proof (F _ nodes) as F2. pose proof (F _ elements) as F3.
  pose proof (F _ entities) as F4. pose proof (F _ physical_groups) as F5. pose proof (F _ element_data) as F6.
  pose proof (F _ element_node_data) as F7. pose proof (F _ ns_version) as F8. pose proof (F _ curves) as F9.
  pose proof (F _ patches) as F10. clear F E. clearbody s. destruct s as [q1 q2 q3 q4 q5 q6 q7 q8 q9 q10 q11].
  cbn [set_node_data mesh_format nodes elements entities physical_groups element_data element_node_data ns_version curves patches node_data] in F1, F2, F3, F4, F5, F6, F7, F8, F9, F10, N.
  subst q1 q2 q3 q4 q5 q7 q8 q9 q10 q11.
  split; [exact H1|exact H2|exact H3| |exact H5|].
  - split; [exact K1|exact K2|exact K3|exact K4|exact K5|exact N|exact K7|exact K8].
  - intro Q. destruct (H6 Q) as [S1 S2 S3]. split; assumption.
Qed.

(** One node, at NaN. *)
Definition ex_nan : MshSpec := set_nodes
  {| n_num_blocks := 1; n_num_nodes := 1; n_min := 1; n_max := 1;
     n_blocks := [ {| nb_dim := 0; nb_tag := 1; nb_parametric := 0; nb_num := 1; nb_tags := [1]; nb_data := [nan; 0; 0] |} ] |}
  spec_default.

Lemma ex_nan_41 : consistent41 c_release true (finite_part true ex_nan).
Proof.
  split; [reflexivity|reflexivity|reflexivity| | |]; cbn.
  - split; cbn; ex_ok.
  - split; cbn; ex_ok.
  - intros _. split; cbn; ex_ok.
Qed.
