(** Concrete specs for builds with and without splines. *)

From Verif Require Import Model.Save Spec.Consistent Spec.Consistent22 Spec.Splines Tests.Examples.

Lemma ex_any_41 : forall nd ns a, consistent41 {| ndebug := nd; nanospline := ns; mem := 1000000 |} a (ex_spec (str "4.1") a).
Proof.
  intros nd ns a. split; [reflexivity|reflexivity|reflexivity| | |].
  - split; cbn [ex_spec physical_groups nodes elements node_data element_data element_node_data].
    + ex_ok.
    + ex_ok.
    + intros _. split; cbn [ex_nodes n_num_blocks n_blocks n_min n_max]; ex_ok.
    + ex_ok.
    + intros _. split; cbn [ex_elements e_num_blocks e_blocks e_min e_max]; ex_ok.
      * exists 3. split; reflexivity.
      * exists 2. split; reflexivity.
    + ex_forall; split; cbn; ex_ok; exists 0, 2, [9]; split; [reflexivity|ex_ok].
    + ex_forall; split; cbn; ex_ok; exists 0, 2, [9]; split; [reflexivity|ex_ok].
    + ex_forall; split; cbn; ex_ok; exists 0, 1, []; split; [reflexivity|ex_ok].
  - split; cbn; ex_ok.
  - intros _. split; cbn; ex_ok.
Qed.

Lemma ex_any_22 : forall nd ns a, consistent22 {| ndebug := nd; nanospline := ns; mem := 1000000 |} a (ex_spec (str "2.2") a).
Proof.
  intros nd ns a. split; [reflexivity|reflexivity|ex_ok|ex_ok|reflexivity| |reflexivity| | | |ex_ok| | | |].
  - intros _. split; cbn [ex_spec nodes ex_nodes n_num_blocks n_blocks n_num_nodes]; ex_ok.
  - intros _. split; cbn [ex_spec elements ex_elements e_num_blocks e_blocks e_num_elements].
    + reflexivity.
    + ex_forall; split; cbn [eb_dim eb_tag eb_type eb_num eb_data].
      1, 2, 3, 5, 6, 7, 8, 9, 10, 12, 13, 14 : ex_ok.
      * exists 3. repeat split; vm_compute; congruence.
      * exists 2. repeat split; vm_compute; congruence.
    + ex_ok.
    + intros _ bs b H0. destruct bs as [|x [|y bs]]; [discriminate| |destruct bs; discriminate].
      injection H0 as _ <-. reflexivity.
  - intros e t He Ht.
    assert (G : 1 <= t <= 7).
    { change (In e [ {| el_dim := 2; el_ent := 1; el_type := 2; el_tag := 1; el_nodes := [7; 1; 2] |};
                     {| el_dim := 2; el_ent := 1; el_type := 2; el_tag := 2; el_nodes := [7; 2; 3] |};
                     {| el_dim := 1; el_ent := 5; el_type := 1; el_tag := 3; el_nodes := [1; 2] |} ]) in He.
      cbn [In] in He. repeat destruct He as [<-|He]; [| | |destruct He];
        cbn [el_nodes In] in Ht; intuition lia. }
    exists {| n_tag := 1; n_x := 0; n_y := 0; n_z := 0 |}, {| n_tag := 7; n_x := d01; n_y := d15; n_z := dm2 |}.
    split; [right; left; reflexivity|]. split; [left; reflexivity|]. cbn [n_tag].
    unfold tag_22. destruct a; [exact G|]. unfold tag32. rewrite (Z.mod_small t) by lia.
    assert (X : t <? 2 ^ 31 = true) by (apply Z.ltb_lt; lia). rewrite X. exact G.
  - intros n1 n2 H1 H2. cbn in H1, H2.
    repeat destruct H1 as [<-|H1]; try destruct H1; repeat destruct H2 as [<-|H2]; try destruct H2; destruct a; split; vm_compute; congruence.
  - ex_forall; split; cbn; ex_ok; exists 0, 2, [9]; split; [reflexivity|ex_ok].
  - ex_forall; split; cbn; ex_ok; exists 0, 2, [9]; split; [reflexivity|ex_ok].
  - ex_forall; split; cbn; ex_ok; exists 0, 1, []; split; [reflexivity|ex_ok].
  - intros _. split; cbn; ex_ok.
Qed.

Lemma ex_bare_41 : forall nd ns a, consistent41 {| ndebug := nd; nanospline := ns; mem := 1000000 |} a (no_splines (ex_spec (str "4.1") a)).
Proof.
  intros nd ns a. destruct (ex_any_41 nd ns a) as [H1 H2 H3 [P1 P2 P3 P4 P5 P6 P7 P8] H5 _].
  split; try assumption; [split; assumption|]. intros _. split; cbn; ex_ok.
Qed.

Lemma ex_bare_22 : forall nd ns a, consistent22 {| ndebug := nd; nanospline := ns; mem := 1000000 |} a (no_splines (ex_spec (str "2.2") a)).
Proof.
  intros nd ns a. destruct (ex_any_22 nd ns a) as [H1 H2 H3 H4 H5 H6 H7 H8 H9 H10 H11 H12 H13 H14 _].
  split; try assumption. intros _. split; cbn; ex_ok.
Qed.

(** The knots of this curve are, as bytes, the end of the section and an empty
    list of groups. *)
Definition trick : MshSpec :=
  {| mesh_format := {| version := str "4.1"; file_type := 1; data_size := 8 |};
     nodes := n_default; elements := e_default; entities := ents_default;
     physical_groups := [ {| pg_dim := 2; pg_tag := 4; pg_name := str "top" |} ];
     node_data := []; element_data := []; element_node_data := []; ns_version := str "1.0";
     curves := [ {| cv_tag := 1; cv_type := 2; cv_degree := 1; cv_ncp := 0; cv_nknots := 6; cv_weights := 0;
       cv_data := [8247572391224747018; 8748330391891567990; 7881667050272418163; 7945796743739372389; 7017568589052399716; 729710019098005100] |} ];
     patches := [] |}.

Lemma trick_bytes : List.concat (map (le 8) (flat_map cv_data (curves trick))) =
  endl ++ str "$EndCurves" ++ endl ++ str "$PhysicalNames" ++ endl ++ str "0" ++ endl ++ str "$EndPhysicalNames " ++ endl.
Proof. reflexivity. Qed.

Lemma trick_41 : forall ns, consistent41 {| ndebug := true; nanospline := ns; mem := 1000000 |} false trick.
Proof.
  intro ns. split; [reflexivity|reflexivity|reflexivity| | |].
  - split; cbn [trick physical_groups nodes elements node_data element_data element_node_data].
    + ex_ok.
    + ex_ok.
    + intro H. destruct (H eq_refl).
    + ex_ok.
    + intro H. destruct (H eq_refl).
    + constructor.
    + constructor.
    + constructor.
  - split; cbn; ex_ok.
  - intros _. split; cbn; ex_ok.
Qed.
