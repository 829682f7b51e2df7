(** Concrete specs for Props/Convert.v. *)

From Verif Require Import Model.Save Model.Validate Spec.Consistent22 Spec.Valid Tests.Examples Tests.ExamplesRt22.

(** No nodes section is written, but an element uses node 5. *)
Definition no_nodes : MshSpec :=
  {| mesh_format := {| version := str "4.1"; file_type := 1; data_size := 8 |};
     nodes := {| n_num_blocks := 0; n_num_nodes := 0; n_min := 1; n_max := 9; n_blocks := [] |};
     elements := {| e_num_blocks := 1; e_num_elements := 1; e_min := 1; e_max := 1;
       e_blocks := [ {| eb_dim := 0; eb_tag := 1; eb_type := 15; eb_num := 1; eb_data := [1; 5] |} ] |};
     entities := {| points := []; curves_e := []; surfaces_e := []; volumes_e := [] |};
     physical_groups := []; node_data := []; element_data := []; element_node_data := [];
     ns_version := str "1.0"; curves := []; patches := [] |}.

Lemma no_nodes_41 : consistent41 c_release false no_nodes.
Proof.
  split; [reflexivity|reflexivity|reflexivity| | |].
  - split; cbn [no_nodes physical_groups nodes elements node_data element_data element_node_data].
    + ex_ok.
    + ex_ok.
    + intro H. destruct (H eq_refl).
    + ex_ok.
    + intros _. split; cbn [e_num_blocks e_blocks e_min e_max]; ex_ok. exists 1. split; reflexivity.
    + constructor.
    + constructor.
    + constructor.
  - split; cbn; ex_ok.
  - intros _. split; cbn; ex_ok.
Qed.

(** Element tag 2^31. *)
Definition big_element : MshSpec :=
  set_elements {| e_num_blocks := 1; e_num_elements := 1; e_min := 2 ^ 31; e_max := 2 ^ 31;
    e_blocks := [ {| eb_dim := 0; eb_tag := 1; eb_type := 15; eb_num := 1; eb_data := [2 ^ 31; 2 ^ 31] |} ] |} big_tags.

Lemma big_element_22 : consistent22 c_release false big_element.
Proof.
  pose proof big_tags_22 as [A1 A2 A3 A4 A5 A6 _ _ _ A10 A11 A12 A13 A14 A15].
  split; [exact A1|exact A2|exact A3|exact A4|exact A5|exact A6|reflexivity| | |exact A10|exact A11|exact A12|exact A13|exact A14|].
  - intros _. split; cbn [big_element set_elements elements e_num_blocks e_blocks e_num_elements].
    + reflexivity.
    + ex_forall; split; cbn [eb_dim eb_tag eb_type eb_num eb_data].
      1, 2, 3, 5, 6, 7 : ex_ok.
      exists 1. repeat split; vm_compute; congruence.
    + ex_ok.
    + intros _ bs b H0. destruct bs as [|x bs]; [|destruct bs; discriminate]. injection H0 as <-. reflexivity.
  - intros e t He Ht. cbn in He. destruct He as [<-|[]]. cbn in Ht. destruct Ht as [<-|[]].
    eexists _, _. split; [left; reflexivity|]. split; [left; reflexivity|]. cbn [n_tag]. split; vm_compute; congruence.
  - intro Hn. destruct (A15 Hn) as [B1 B2 B3]. split; assumption.
Qed.

Lemma ex_small : forall v a, small_tags (ex_spec v a).
Proof.
  intros v a. split.
  - assert (E : forallb (fun n => (0 <=? n_tag n) && (n_tag n <? 2 ^ 31)) (mesh_nodes (nodes (ex_spec v a))) = true) by reflexivity.
    rewrite forallb_forall in E. apply Forall_forall. intros n Hn. specialize (E n Hn). lia.
  - assert (E : forallb (fun e => (0 <=? el_tag e) && (el_tag e <? 2 ^ 31) && forallb (fun t => (0 <=? t) && (t <? 2 ^ 31)) (el_nodes e))
      (mesh_elements (elements (ex_spec v a))) = true) by reflexivity.
    rewrite forallb_forall in E. apply Forall_forall. intros e He. specialize (E e He).
    apply andb_prop in E. destruct E as [E1 E2]. split; [lia|]. rewrite forallb_forall in E2.
    apply Forall_forall. intros t Ht. specialize (E2 t Ht). lia.
Qed.

Lemma ex_room : forall v a, room41 c_debug (ex_spec v a).
Proof. intros v a. split; split; vm_compute; congruence. Qed.

Lemma ex_small_data : forall v a, small_data (ex_spec v a).
Proof.
  intros v a d e Hd He. cbn in Hd. repeat destruct Hd as [<-|Hd]; [| | |destruct Hd]; cbn in He;
    repeat destruct He as [<-|He]; try destruct He; cbn; lia.
Qed.

(** A subnormal coordinate just above 10^-318. *)
Definition tiny : MshSpec :=
  {| mesh_format := {| version := str "4.1"; file_type := 0; data_size := 8 |};
     nodes := {| n_num_blocks := 1; n_num_nodes := 1; n_min := 1; n_max := 1;
       n_blocks := [ {| nb_dim := 0; nb_tag := 1; nb_parametric := 0; nb_num := 1; nb_tags := [1]; nb_data := [202403; 0; 0] |} ] |};
     elements := e_default;
     entities := {| points := []; curves_e := []; surfaces_e := []; volumes_e := [] |};
     physical_groups := []; node_data := []; element_data := []; element_node_data := [];
     ns_version := str "1.0"; curves := []; patches := [] |}.

Lemma tiny_41 : consistent41 c_release true tiny.
Proof.
  split; [reflexivity|reflexivity|reflexivity| | |].
  - split; cbn [tiny physical_groups nodes elements node_data element_data element_node_data].
    + ex_ok.
    + ex_ok.
    + intros _. split; cbn [n_num_blocks n_blocks n_min n_max]; ex_ok.
    + ex_ok.
    + intro H. destruct (H eq_refl).
    + constructor.
    + constructor.
    + constructor.
  - split; cbn; ex_ok.
  - intros _. split; cbn; ex_ok.
Qed.
