(** C68: what the project's round-trip tests compare, and which specs pass them. *)

From Verif Require Import Model.TestIo Spec.Alike Spec.Consistent22 Tests.Examples Proofs.ShowP Proofs.TextP Proofs.RoundP Proofs.TestIoP
  Proofs.TestRtP.
Ltac Zify.zify_post_hook ::= idtac.

(** ASSERT_SAME has a verdict, and it is whether the specs are alike. *)
Theorem C68_compares : forall c s s', counted s -> counted s' ->
  Forall size_ok (compared (nanospline c) s) -> Forall size_ok (compared (nanospline c) s') ->
  (exists v, assert_same c s s' = Ok v) /\ (assert_same c s s' = Ok true <-> alike (nanospline c) s s').
Proof.
  intros c s s' C1 C2 Z1 Z2. destruct (same_decides c s s' C1 C2 Z1 Z2) as [[-> A]|[-> A]].
  - split; [eauto|tauto].
  - split; [eauto|]. split; [discriminate|tauto].
Qed.
Print Assumptions C68_compares.

Example C68_compares_hyp : counted (ex_spec (str "4.1") false) /\ Forall size_ok (compared true (ex_spec (str "4.1") false)) /\
  compared true (ex_spec (str "4.1") false) <> [].
Proof. split; [split; reflexivity|]. split; [|discriminate]. cbn. ex_forall; split; vm_compute; congruence. Qed.

(** Entities, physical groups, patches and the format can be anything. *)
Theorem C68_blind : forall c s t s', nodes s = nodes t -> elements s = elements t ->
  node_data s = node_data t -> element_data s = element_data t -> element_node_data s = element_node_data t ->
  (nanospline c = true -> curves s = curves t) ->
  assert_same c s s' = assert_same c t s' /\ assert_same c s' s = assert_same c s' t.
Proof.
  intros c s t s' E1 E2 E3 E4 E5 E6. unfold assert_same, assert_same_nodes, assert_same_elements, assert_same_curves.
  rewrite E1, E2, E3, E4, E5. destruct (nanospline c); [rewrite E6 by reflexivity|]; split; reflexivity.
Qed.
Print Assumptions C68_blind.

(** So can num_nodes_in_block. *)
Definition renumber (f : NodeBlock -> Z) (s : MshSpec) : MshSpec :=
  set_nodes {| n_num_blocks := n_num_blocks (nodes s); n_num_nodes := n_num_nodes (nodes s);
               n_min := n_min (nodes s); n_max := n_max (nodes s);
               n_blocks := map (fun b => {| nb_dim := nb_dim b; nb_tag := nb_tag b; nb_parametric := nb_parametric b;
                                            nb_num := f b; nb_tags := nb_tags b; nb_data := nb_data b |})
                             (n_blocks (nodes s)) |} s.

Theorem C68_renumbered : forall c f g s s', assert_same c (renumber f s) (renumber g s') = assert_same c s s'.
Proof.
  intros c f g s s'. unfold assert_same. f_equal. unfold assert_same_nodes. cbv zeta. f_equal. apply each_ext. intros i _.
  cbn [renumber set_nodes nodes n_blocks]. unfold at_. destruct (i <? 0); [reflexivity|]. rewrite !nth_error_map.
  destruct (nth_error (n_blocks (nodes s)) (Z.to_nat i)); [|reflexivity]. cbn [option_map obind].
  destruct (nth_error (n_blocks (nodes s')) (Z.to_nat i)); reflexivity.
Qed.
Print Assumptions C68_renumbered.

Definition stripped (s : MshSpec) : MshSpec :=
  {| mesh_format := mf_default; nodes := nodes s; elements := elements s; entities := ents_default; physical_groups := [];
     node_data := node_data s; element_data := element_data s; element_node_data := element_node_data s;
     ns_version := []; curves := curves s; patches := [] |}.

Example C68_blind_ex : exists s, entities s <> entities (stripped s) /\ physical_groups s <> physical_groups (stripped s) /\
  patches s <> patches (stripped s) /\ assert_same c_release s (stripped s) = Ok true.
Proof. exists (ex_spec (str "2.2") false). split; [discriminate|]. split; [discriminate|]. split; [discriminate|]. vm_compute. reflexivity. Qed.

(** The tests in version 4.1. *)
Theorem C68_run41 : exists r : dbl -> dbl,
  (forall x, size_ok x -> finite x -> six_digits_of x (r x)) /\
  forall c a s, consistent41 c a (to41 a s) ->
    (validate_spec s = Ok tt -> exists v, save_and_load c (str "4.1") (if a then 0 else 1) s = Ok v) /\
    (save_and_load c (str "4.1") (if a then 0 else 1) s = Ok true <-> validate_spec s = Ok tt /\ survives c a r s).
Proof.
  exists ascii_round. split; [exact ascii_round_six|]. intros c a s H.
  assert (V : save_and_load c (str "4.1") (if a then 0 else 1) s = Ok true -> validate_spec s = Ok tt) by apply test_validates.
  split.
  - intro V'. destruct (pass41 c a s H V') as [[-> _]|[-> _]]; eauto.
  - split.
    + intro E. pose proof (V E) as V'. destruct (pass41 c a s H V') as [[_ A]|[E' _]]; [auto|]. rewrite E' in E. discriminate.
    + intros [V' A]. destruct (pass41 c a s H V') as [[E _]|[_ NA]]; [exact E|]. destruct (NA A).
Qed.
Print Assumptions C68_run41.

(** The tests in version 2.2. *)
Theorem C68_run22 : exists r : dbl -> dbl,
  (forall x, size_ok x -> finite x -> six_digits_of x (r x)) /\
  forall c a s, consistent22 c a (to22 a s) ->
    Forall (fun e => el_tag e <= INT_MAX) (mesh_elements (elements s)) ->
    (validate_spec s = Ok tt -> exists v, save_and_load c (str "2.2") (if a then 0 else 1) s = Ok v) /\
    (save_and_load c (str "2.2") (if a then 0 else 1) s = Ok true <->
     validate_spec s = Ok tt /\ survives c a r s /\ regular a s).
Proof.
  exists ascii_round. split; [exact ascii_round_six|]. intros c a s H T.
  assert (V : save_and_load c (str "2.2") (if a then 0 else 1) s = Ok true -> validate_spec s = Ok tt) by apply test_validates.
  split.
  - intro V'. destruct (pass22 c a s H V' T) as [[-> _]|[-> _]]; eauto.
  - split.
    + intro E. pose proof (V E) as V'. destruct (pass22 c a s H V' T) as [[_ A]|[E' _]]; [auto|]. rewrite E' in E. discriminate.
    + intros [V' A]. destruct (pass22 c a s H V' T) as [[E _]|[_ NA]]; [exact E|]. destruct (NA A).
Qed.
Print Assumptions C68_run22.

(** ** The test case "Line element" (test_io.cpp:294-341), its second node at (x, 0, 0) *)

Definition line (x : dbl) : MshSpec :=
  {| mesh_format := mf_default;
     nodes := {| n_num_blocks := 1; n_num_nodes := 2; n_min := 1; n_max := 2;
       n_blocks := [ {| nb_dim := 1; nb_tag := 1; nb_parametric := 0; nb_num := 2; nb_tags := [1; 2];
                        nb_data := [0; 0; 0; x; 0; 0] |} ] |};
     elements := {| e_num_blocks := 1; e_num_elements := 1; e_min := 1; e_max := 1;
       e_blocks := [ {| eb_dim := 1; eb_tag := 1; eb_type := 1; eb_num := 1; eb_data := [1; 1; 2] |} ] |};
     entities := ents_default; physical_groups := []; node_data := []; element_data := []; element_node_data := [];
     ns_version := str "1.0"; curves := []; patches := [] |}.

Definition c_test (nd ext : bool) : cfg := {| ndebug := nd; nanospline := ext; mem := 1000000 |}.

Lemma zero_ok : forall a, dbl_ok a 0.
Proof. intro a. split; [split; reflexivity || discriminate|discriminate]. Qed.

Lemma line_data : forall a x, dbl_ok a x -> Forall (dbl_ok a) [0; 0; 0; x; 0; 0].
Proof. intros a x H. pose proof (zero_ok a). repeat (apply Forall_cons || apply Forall_nil); assumption. Qed.

Lemma line_41 : forall nd ext a x, dbl_ok a x -> consistent41 (c_test nd ext) a (to41 a (line x)).
Proof.
  intros nd ext a x H. split; [reflexivity|reflexivity|reflexivity| | |].
  - split; cbn [to41 as_version as_type set_format line physical_groups nodes elements node_data element_data element_node_data].
    + ex_ok.
    + ex_ok.
    + intros _. split; cbn [n_num_blocks n_blocks n_min n_max]; [reflexivity|ex_ok|ex_ok|ex_ok|].
      apply Forall_cons; [|constructor]. split; cbn [nb_dim nb_tag nb_parametric nb_num nb_tags nb_data].
      1, 2, 3, 4, 5, 6, 7, 8, 10, 11 : ex_ok.
      exact (line_data a x H).
    + ex_ok.
    + intros _. split; cbn [e_num_blocks e_blocks e_min e_max]; ex_ok. exists 2. split; reflexivity.
    + constructor.
    + constructor.
    + constructor.
  - split; cbn; ex_ok.
  - intros _. split; cbn; ex_ok.
Qed.

Lemma line_22 : forall nd ext a x, dbl_ok a x -> consistent22 (c_test nd ext) a (to22 a (line x)).
Proof.
  intros nd ext a x H. split; [reflexivity|reflexivity|ex_ok|ex_ok|reflexivity| |reflexivity| | | |ex_ok| | | |].
  - intros _. split; cbn [to22 as_version as_type set_format line nodes n_num_blocks n_blocks n_num_nodes];
      [reflexivity| |ex_ok|ex_ok].
    apply Forall_cons; [|constructor]. split; cbn [nb_dim nb_tag nb_parametric nb_num nb_tags nb_data].
    1, 2, 3, 4, 6 : ex_ok.
    exact (line_data a x H).
  - intros _. split; cbn [to22 as_version as_type set_format line elements e_num_blocks e_blocks e_num_elements].
    + reflexivity.
    + apply Forall_cons; [|constructor]. split; cbn [eb_dim eb_tag eb_type eb_num eb_data].
      1, 2, 3, 5, 6, 7 : ex_ok.
      exists 2. repeat split; vm_compute; congruence.
    + ex_ok.
    + intros _ bs b H0. destruct bs as [|y bs]; [|destruct bs; discriminate]. injection H0 as <-. reflexivity.
  - intros e t He Ht.
    change (In e [ {| el_dim := 1; el_ent := 1; el_type := 1; el_tag := 1; el_nodes := [1; 2] |} ]) in He.
    destruct He as [<-|[]].
    exists {| n_tag := 1; n_x := 0; n_y := 0; n_z := 0 |}, {| n_tag := 2; n_x := x; n_y := 0; n_z := 0 |}.
    split; [left; reflexivity|]. split; [right; left; reflexivity|]. cbn [n_tag]. cbn in Ht.
    destruct Ht as [<-|[<-|[]]]; destruct a; vm_compute; split; discriminate.
  - intros n1 n2 H1 H2.
    change (In n1 [ {| n_tag := 1; n_x := 0; n_y := 0; n_z := 0 |}; {| n_tag := 2; n_x := x; n_y := 0; n_z := 0 |} ]) in H1.
    change (In n2 [ {| n_tag := 1; n_x := 0; n_y := 0; n_z := 0 |}; {| n_tag := 2; n_x := x; n_y := 0; n_z := 0 |} ]) in H2.
    destruct H1 as [<-|[<-|[]]], H2 as [<-|[<-|[]]]; destruct a; split; vm_compute; congruence.
  - constructor.
  - constructor.
  - constructor.
  - intros _. split; cbn; ex_ok.
Qed.

Lemma line_regular : forall a x, regular a (line x).
Proof.
  intros a x. split; cbn [line nodes elements n_blocks e_blocks n_min n_max e_min e_max].
  - apply Forall_cons; [|constructor]. cbn. split; [reflexivity|]. split; [discriminate|].
    repeat (apply Forall_cons || apply Forall_nil); intros _; left; reflexivity.
  - exact Logic.I.
  - intros b t [<-|[]] Ht. left. exists [], {| el_dim := 1; el_ent := 1; el_type := 1; el_tag := 1; el_nodes := [1; 2] |}, [].
    split; [reflexivity|]. split; [exact Ht|]. split; [intros e []|reflexivity].
  - intros _. split; [left; reflexivity|right; left; reflexivity].
  - apply Forall_cons; [|constructor]. cbn. split; [reflexivity|].
    repeat (apply Forall_cons || apply Forall_nil); intros _; left; reflexivity.
  - exact Logic.I.
  - intros _. split; left; reflexivity.
Qed.

Lemma line_survives : forall c a r x, (a = true -> (dval (r 0%Z) == dval 0%Z)%Q) -> stays r a x -> survives c a r (line x).
Proof.
  intros c a r x Z H. split; cbn [line nodes elements n_blocks].
  - apply Forall_cons; [|constructor].
    assert (Z0 : stays r a 0) by (unfold stays; destruct a; [auto|left; discriminate]).
    repeat (apply Forall_cons || apply Forall_nil); assumption.
  - discriminate.
  - discriminate.
  - constructor.
  - intros _. constructor.
Qed.

(** It passes in the four formats if and only if x survives. *)
Theorem C68_line : exists r : dbl -> dbl,
  (forall x, size_ok x -> finite x -> six_digits_of x (r x)) /\
  (forall x, size_ok x -> finite x -> six_digit x -> r x = x) /\
  forall nd ext a x, dbl_ok a x ->
    (save_and_load (c_test nd ext) (str "4.1") (if a then 0 else 1) (line x) = Ok true <-> stays r a x) /\
    (save_and_load (c_test nd ext) (str "2.2") (if a then 0 else 1) (line x) = Ok true <-> stays r a x).
Proof.
  exists ascii_round. split; [exact ascii_round_six|]. split; [exact six_digit_fixed|]. intros nd ext a x H.
  assert (Z0 : a = true -> (dval (ascii_round 0%Z) == dval 0%Z)%Q) by (intros _; vm_compute; reflexivity).
  assert (V : validate_spec (line x) = Ok tt) by reflexivity.
  assert (S : survives (c_test nd ext) a ascii_round (line x) <-> stays ascii_round a x).
  { split; [|apply line_survives; exact Z0]. intros [S _ _ _ _]. cbn in S. apply Forall_inv in S.
    do 3 apply Forall_inv_tail in S. exact (Forall_inv S). }
  split.
  - rewrite <- S. destruct (pass41 _ _ _ (line_41 nd ext a x H) V) as [[-> A]|[-> A]]; [tauto|]. split; [discriminate|tauto].
  - rewrite <- S. destruct (pass22 (c_test nd ext) a (line x) (line_22 nd ext a x H) V) as [[-> A]|[-> A]].
    + apply Forall_cons; [vm_compute; discriminate|constructor].
    + tauto.
    + split; [discriminate|]. intro Q. exfalso. apply A. split; [exact Q|apply line_regular].
Qed.
Print Assumptions C68_line.

(** 1.0, as in the test, survives. *)
Definition d1 : dbl := 4607182418800017408.
Example C68_one : size_ok d1 /\ finite d1 /\ six_digit d1.
Proof.
  split; [split; [discriminate|reflexivity]|]. split; [discriminate|]. exists 1, 0. split; [reflexivity|]. left. vm_compute. reflexivity.
Qed.

(** A NaN comes back as it was, and the test fails all the same. *)
Definition dnan : dbl := 9221120237041090560.
Example C68_nan : size_ok dnan /\ ~ finite dnan /\ ~ infinite dnan /\ dbl_ok false dnan.
Proof.
  assert (S : size_ok dnan) by (split; [discriminate|reflexivity]).
  split; [exact S|]. split; [intro F; apply F; reflexivity|]. split; [intros [_ F]; discriminate|]. split; [exact S|discriminate].
Qed.

Theorem C68_nan_refuted : exists c s b, consistent41 c false s /\ validate_spec s = Ok tt /\
  save_msh c s = (b, Ok tt) /\ load_msh c b = Ok s /\ save_and_load c (str "4.1") 1 s = Ok false.
Proof.
  destruct (Final.rt41 false) as (r & _ & RT). destruct C68_nan as (S & NF & NI & DO).
  pose proof (line_41 true true false dnan DO) as H. destruct (RT _ _ H) as (b & E1 & E2).
  exists (c_test true true), (to41 false (line dnan)), b. split; [exact H|]. split; [reflexivity|]. split; [exact E1|].
  split; [rewrite E2; reflexivity|].
  change (save_and_load (c_test true true) (str "4.1") (if false then 0 else 1) (line dnan) = Ok false).
  destruct (pass41 _ _ _ H eq_refl) as [[_ [A _ _ _ _]]|[E _]]; [exfalso|exact E].
  cbn in A. apply Forall_inv in A. do 3 apply Forall_inv_tail in A. apply Forall_inv in A. cbn in A. tauto.
Qed.
Print Assumptions C68_nan_refuted.

(** ** The test case "Empty" (test_io.cpp:244-250) *)
Example C68_empty :
  map (fun p => save_and_load c_debug (fst p) (snd p) spec_default)
    [(str "4.1", 0); (str "4.1", 1); (str "2.2", 0); (str "2.2", 1)] = [Ok true; Ok true; Ok true; Ok true].
Proof. vm_compute. reflexivity. Qed.
