(** Concrete specs for the 2.2 round trips. *)

From Verif Require Import Model.Save Spec.Consistent22 Tests.Examples.

Lemma ex_spec_22 : forall nd a, consistent22 {| ndebug := nd; nanospline := true; mem := 1000000 |} a (ex_spec (str "2.2") a).
Proof.
  intros nd a. split; [reflexivity|reflexivity|ex_ok|ex_ok|reflexivity| |reflexivity| | | |ex_ok| | | |].
  - intros _. split; cbn [ex_spec nodes ex_nodes n_num_blocks n_blocks n_num_nodes]; ex_ok.
  - intros _. split; cbn [ex_spec elements ex_elements e_num_blocks e_blocks e_num_elements].
    + reflexivity.
    + ex_forall; split; cbn [eb_dim eb_tag eb_type eb_num eb_data].
      1, 2, 3, 5, 6, 7, 8, 9, 10, 12, 13, 14 : ex_ok.
      * exists 3. repeat split; vm_compute; congruence.
      * exists 2. repeat split; vm_compute; congruence.
    + ex_ok.
    + intros _ bs b H0. destruct bs as [|x [|y bs]]; [discriminate| |destruct bs; discriminate].
      injection H0 as _ <-. reflexivity.
  - intros e t He Ht.
    assert (G : 1 <= t <= 7).
    { change (In e [ {| el_dim := 2; el_ent := 1; el_type := 2; el_tag := 1; el_nodes := [7; 1; 2] |};
                     {| el_dim := 2; el_ent := 1; el_type := 2; el_tag := 2; el_nodes := [7; 2; 3] |};
                     {| el_dim := 1; el_ent := 5; el_type := 1; el_tag := 3; el_nodes := [1; 2] |} ]) in He.
      cbn [In] in He. repeat destruct He as [<-|He]; [| | |destruct He];
        cbn [el_nodes In] in Ht; intuition lia. }
    exists {| n_tag := 1; n_x := 0; n_y := 0; n_z := 0 |}, {| n_tag := 7; n_x := d01; n_y := d15; n_z := dm2 |}.
    split; [right; left; reflexivity|]. split; [left; reflexivity|]. cbn [n_tag].
    unfold tag_22. destruct a; [exact G|]. unfold tag32. rewrite (Z.mod_small t) by lia.
    assert (X : t <? 2 ^ 31 = true) by (apply Z.ltb_lt; lia). rewrite X. exact G.
  - intros n1 n2 H1 H2. cbn in H1, H2.
    repeat destruct H1 as [<-|H1]; try destruct H1; repeat destruct H2 as [<-|H2]; try destruct H2; destruct a; split; vm_compute; congruence.
  - ex_forall; split; cbn; ex_ok; exists 0, 2, [9]; split; [reflexivity|ex_ok].
  - ex_forall; split; cbn; ex_ok; exists 0, 2, [9]; split; [reflexivity|ex_ok].
  - ex_forall; split; cbn; ex_ok; exists 0, 1, []; split; [reflexivity|ex_ok].
  - intros _. split; cbn; ex_ok.
Qed.

(** Tags of 2^31 and more. *)
Definition big_tags : MshSpec :=
  {| mesh_format := {| version := str "2.2"; file_type := 1; data_size := 8 |};
     nodes := {| n_num_blocks := 1; n_num_nodes := 1; n_min := 2 ^ 31; n_max := 2 ^ 31;
       n_blocks := [ {| nb_dim := 0; nb_tag := 1; nb_parametric := 0; nb_num := 1; nb_tags := [2 ^ 31]; nb_data := [0; 0; 0] |} ] |};
     elements := {| e_num_blocks := 1; e_num_elements := 1; e_min := 2 ^ 32 + 5; e_max := 2 ^ 32 + 5;
       e_blocks := [ {| eb_dim := 0; eb_tag := 1; eb_type := 15; eb_num := 1; eb_data := [2 ^ 32 + 5; 2 ^ 31] |} ] |};
     entities := {| points := []; curves_e := []; surfaces_e := []; volumes_e := [] |};
     physical_groups := [];
     node_data := [ {| d_header := {| string_tags := []; real_tags := []; int_tags := [0; 1; 1] |};
                       d_entries := [ {| de_tag := 2 ^ 31; de_npe := 0; de_data := [d15] |} ] |} ];
     element_data := []; element_node_data := []; ns_version := str "1.0"; curves := []; patches := [] |}.

Lemma big_tags_22 : consistent22 c_release false big_tags.
Proof.
  split; [reflexivity|reflexivity|ex_ok|ex_ok|reflexivity| |reflexivity| | | |ex_ok| | | |].
  - intros _. split; cbn [big_tags nodes n_num_blocks n_blocks n_num_nodes]; ex_ok.
  - intros _. split; cbn [big_tags elements e_num_blocks e_blocks e_num_elements].
    + reflexivity.
    + ex_forall; split; cbn [eb_dim eb_tag eb_type eb_num eb_data].
      1, 2, 3, 5, 6, 7 : ex_ok.
      exists 1. repeat split; vm_compute; congruence.
    + ex_ok.
    + intros _ bs b H0. destruct bs as [|x bs]; [|destruct bs; discriminate]. injection H0 as <-. reflexivity.
  - intros e t He Ht. cbn in He. destruct He as [<-|[]]. cbn in Ht. destruct Ht as [<-|[]].
    eexists _, _. split; [left; reflexivity|]. split; [left; reflexivity|]. cbn [n_tag]. split; vm_compute; congruence.
  - intros n1 n2 H1 H2. cbn in H1, H2. destruct H1 as [<-|[]]. destruct H2 as [<-|[]]. split; vm_compute; congruence.
  - ex_forall; split; cbn; ex_ok; exists 0, 1, []; split; [reflexivity|ex_ok].
  - constructor.
  - constructor.
  - intros _. split; cbn; ex_ok.
Qed.
