(** Concrete specs used to show that hypotheses of theorems can be met. *)

From Verif Require Import Model.Save Spec.Consistent.

Definition c_release := {| ndebug := true; nanospline := true; mem := 1000000 |}.
Definition c_debug := {| ndebug := false; nanospline := true; mem := 1000000 |}.

(** Doubles: 0.1, 1.5, -2, 1/3. *)
Definition d01 : dbl := 4591870180066957722.
Definition d15 : dbl := 4609434218613702656.
Definition dm2 : dbl := 13835058055282163712.
Definition d13 : dbl := 4599676419421066581.

Definition ex_nodes : Nodes :=
  {| n_num_blocks := 2; n_num_nodes := 4; n_min := 1; n_max := 7;
     n_blocks :=
       [ {| nb_dim := 2; nb_tag := 1; nb_parametric := 1; nb_num := 1; nb_tags := [7];
            nb_data := [d01; d15; dm2; d13; 0] |};
         {| nb_dim := 1; nb_tag := 5; nb_parametric := 0; nb_num := 3; nb_tags := [1; 2; 3];
            nb_data := [0; 0; 0; d15; 0; 0; 0; d15; dm2] |} ] |}.

Definition ex_elements : Elements :=
  {| e_num_blocks := 2; e_num_elements := 3; e_min := 1; e_max := 3;
     e_blocks :=
       [ {| eb_dim := 2; eb_tag := 1; eb_type := 2; eb_num := 2; eb_data := [1; 7; 1; 2; 2; 7; 2; 3] |};
         {| eb_dim := 1; eb_tag := 5; eb_type := 1; eb_num := 1; eb_data := [3; 1; 2] |} ] |}.

Definition ex_entities : Entities :=
  {| points := [ {| pe_tag := 1; pe_x := d01; pe_y := 0; pe_z := dm2; pe_phys := [4; -1] |} ];
     curves_e := [ {| en_tag := 5; en_min_x := 0; en_min_y := 0; en_min_z := 0; en_max_x := d15;
                      en_max_y := d15; en_max_z := d13; en_phys := []; en_bnd := [1; -2] |} ];
     surfaces_e := []; volumes_e := [] |}.

Definition ex_node_data : Data :=
  {| d_header := {| string_tags := [str "a ""quoted"" $EndNodeData name"]; real_tags := [d13];
                    int_tags := [0; 2; 2; 9] |};
     d_entries := [ {| de_tag := 1; de_npe := 0; de_data := [d01; d15] |};
                    {| de_tag := 7; de_npe := 0; de_data := [dm2; d13] |} ] |}.

Definition ex_enode_data : Data :=
  {| d_header := {| string_tags := []; real_tags := []; int_tags := [0; 1; 1] |};
     d_entries := [ {| de_tag := 1; de_npe := 3; de_data := [d01; d15; dm2] |} ] |}.

Definition ex_curve : Curve :=
  {| cv_tag := 1; cv_type := 2; cv_degree := 1; cv_ncp := 2; cv_nknots := 2; cv_weights := 1;
     cv_data := [0; 0; 0; d15; d15; d15; 0; d15; 0; d15] |}.
Definition ex_patch : Patch :=
  {| pt_tag := 1; pt_type := 2; pt_degu := 1; pt_degv := 1; pt_ncp := 1; pt_nu := 1; pt_nv := 2;
     pt_weights := 0; pt_data := [0; d15; d01; dm2; d13; 0] |}.

(** A spec with something in every section. *)
Definition ex_spec (v : bytes) (ascii : bool) : MshSpec :=
  {| mesh_format := {| version := v; file_type := if ascii then 0 else 1; data_size := 8 |};
     nodes := ex_nodes; elements := ex_elements;
     entities := ex_entities;
     physical_groups := [ {| pg_dim := 2; pg_tag := 4; pg_name := str "top $EndPhysicalNames" |} ];
     node_data := [ex_node_data]; element_data := [ex_node_data];
     element_node_data := [ex_enode_data];
     ns_version := str "1.0"; curves := [ex_curve]; patches := [ex_patch] |}.

Ltac ex_num := first [lia | reflexivity | discriminate | vm_compute; intuition discriminate].
Ltac ex_forall := repeat (apply Forall_nil || apply Forall_cons).
Ltac ex_ok :=
  repeat first
    [ progress intros
    | split | progress ex_forall
    | progress (unfold dbl_ok, ints_ok, fits, int_ok, size_ok, finite, word in *)
    | ex_num ].

Lemma ex_spec_41 : forall nd a, consistent41 {| ndebug := nd; nanospline := true; mem := 1000000 |} a (ex_spec (str "4.1") a).
Proof.
  intros nd a. split; [reflexivity|reflexivity|reflexivity| | |].
  - split; cbn [ex_spec physical_groups nodes elements node_data element_data element_node_data].
    + ex_ok.
    + ex_ok.
    + intros _. split; cbn [ex_nodes n_num_blocks n_blocks n_min n_max]; ex_ok.
    + ex_ok.
    + intros _. split; cbn [ex_elements e_num_blocks e_blocks e_min e_max]; ex_ok.
      * exists 3. split; reflexivity.
      * exists 2. split; reflexivity.
    + ex_forall; split; cbn; ex_ok; exists 0, 2, [9]; split; [reflexivity|ex_ok].
    + ex_forall; split; cbn; ex_ok; exists 0, 2, [9]; split; [reflexivity|ex_ok].
    + ex_forall; split; cbn; ex_ok; exists 0, 1, []; split; [reflexivity|ex_ok].
  - split; cbn; ex_ok.
  - intros _. split; cbn; ex_ok.
Qed.

(** Side conditions about concrete words and whitespace. *)
Ltac ex_words :=
  unfold int_ok, word;
  repeat first [apply Forall_nil | apply Forall_cons | split | reflexivity | discriminate].
