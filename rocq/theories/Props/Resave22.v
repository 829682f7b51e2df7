(** C81: whatever loads, of either version, can be saved as version 4.1. *)

From Verif Require Import Model.LoadMsh Model.Save Spec.Resave Spec.Rounding Tests.Examples
  Proofs.RtStep Proofs.ShowP Proofs.RoundP Proofs.RewriteP Proofs.ResaveP Proofs.Resave22P Proofs.DistinctP Props.RoundTrip41 Props.Resave.

(** C17 without regard to the version. *)
Theorem C81_loaded : forall c c' b s, load_msh c b = Ok s -> roomy c' s -> loaded s.
Proof. intros c c' b s L M. exact (proj1 (loaded_any c c' b s L M)). Qed.
Print Assumptions C81_loaded.

Theorem C81_binary : exists r, (forall x, size_ok x -> finite x -> six_digits_of x (r x)) /\ forall c c' b s,
  load_msh c b = Ok s -> data_size (mesh_format s) = 8 -> sober s -> roomy c' s ->
  exists b', save_msh c' (to41 false s) = (b', Ok tt) /\
    load_msh c' b' = Ok (via41 false r (nanospline c') (to41 false s)).
Proof.
  destruct C01_binary41_roundtrip as (r & R & H). exists r. split; [exact R|]. intros c c' b s L V S M.
  apply H. apply (upgraded c c' false b s L V S M). discriminate.
Qed.
Print Assumptions C81_binary.

Theorem C81_lossless : forall c c' b s,
  load_msh c b = Ok s -> data_size (mesh_format s) = 8 -> sober s -> roomy c' s -> lossless c' s ->
  exists b', save_msh c' (to41 false s) = (b', Ok tt) /\ load_msh c' b' = Ok (to41 false s).
Proof.
  intros c c' b s L V S M LL. destruct C81_binary as (r & _ & H). destruct (H c c' b s L V S M) as (b' & E1 & E2).
  exists b'. split; [exact E1|]. rewrite E2. f_equal. apply lossless_via. destruct LL. split; assumption.
Qed.
Print Assumptions C81_lossless.

Theorem C81_text : exists r, (forall x, size_ok x -> finite x -> six_digits_of x (r x)) /\ forall c c' b s,
  load_msh c b = Ok s -> data_size (mesh_format s) = 8 -> sober s -> roomy c' s -> textual c' s ->
  exists b', save_msh c' (to41 true s) = (b', Ok tt) /\
    load_msh c' b' = Ok (via41 true r (nanospline c') (to41 true s)).
Proof.
  destruct C02_ascii41_roundtrip as (r & R & H). exists r. split; [exact R|]. intros c c' b s L V S M T.
  apply H. apply (upgraded c c' true b s L V S M). intros _. exact T.
Qed.
Print Assumptions C81_text.

(** ** Cases *)

(** A 2.2 file with junk and two node sections that ends in the middle of an element: the missing
    number is that of the element before. *)
Definition ex_junk22 : bytes := str "junk $MeshFormat 2.2 0 8 $EndMeshFormat $Nodes 2 7 0 0 0 8 0 0 0 $EndNodes $Junk 5 $EndJunk
  $Nodes 1 6 0 0 0 $EndNodes $Elements 2 1 1 2 3 4 7 8 2 1 2 3 5 6".

Definition ex_entity (t : Z) : Entity :=
  {| en_tag := t; en_min_x := 0; en_min_y := 0; en_min_z := 0; en_max_x := 0; en_max_y := 0; en_max_z := 0; en_phys := [3]; en_bnd := [] |}.
Definition ex_junk22_spec : MshSpec :=
  {| mesh_format := {| version := str "2.2"; file_type := 0; data_size := 8 |};
     nodes := {| n_num_blocks := 2; n_num_nodes := 3; n_min := 6; n_max := 8;
       n_blocks := [{| nb_dim := 1; nb_tag := 4; nb_parametric := 0; nb_num := 1; nb_tags := [7]; nb_data := [0; 0; 0] |};
                    {| nb_dim := 1; nb_tag := 5; nb_parametric := 0; nb_num := 2; nb_tags := [8; 6]; nb_data := [0; 0; 0; 0; 0; 0] |}] |};
     elements := {| e_num_blocks := 2; e_num_elements := 2; e_min := 1; e_max := 2;
       e_blocks := [{| eb_dim := 1; eb_tag := 4; eb_type := 1; eb_num := 1; eb_data := [1; 7; 8] |};
                    {| eb_dim := 1; eb_tag := 5; eb_type := 1; eb_num := 1; eb_data := [2; 6; 8] |}] |};
     entities := {| points := []; curves_e := [ex_entity 4; ex_entity 5]; surfaces_e := []; volumes_e := [] |};
     physical_groups := []; node_data := []; element_data := []; element_node_data := [];
     ns_version := str "1.0"; curves := []; patches := [] |}.

Lemma two_blocks : forall A (P : A -> Prop) x y, P x -> P y -> Forall P [x; y].
Proof. intros A P x y H K. constructor; [exact H|]. constructor; [exact K|constructor]. Qed.

Example C81_hyp : load_msh c_release ex_junk22 = Ok ex_junk22_spec /\ data_size (mesh_format ex_junk22_spec) = 8 /\
  sober ex_junk22_spec /\ roomy c_debug ex_junk22_spec /\ textual c_debug ex_junk22_spec /\ lossless c_debug ex_junk22_spec.
Proof.
  split; [vm_compute; reflexivity|]. split; [reflexivity|]. split; [|split; [|split]].
  - split; cbn; repeat match goal with |- Forall _ [] => constructor | |- Forall _ [_; _] => apply two_blocks end.
    + vm_compute. split; congruence.
    + vm_compute. split; congruence.
    + intros n H. vm_compute in H. injection H as <-. reflexivity.
    + intros n H. vm_compute in H. injection H as <-. reflexivity.
  - split; cbn; repeat match goal with |- _ /\ _ => split | |- Forall _ [] => constructor | |- Forall _ [_; _] => apply two_blocks
      | |- roomy_entity _ _ => split end; split; vm_compute; discriminate.
  - split; cbn; repeat match goal with |- Forall _ [] => constructor | |- Forall _ [_; _] => apply two_blocks end.
    + split; [repeat (apply Forall_cons; [vm_compute; discriminate|]); apply Forall_nil|intros _; split; discriminate].
    + split; [repeat (apply Forall_cons; [vm_compute; discriminate|]); apply Forall_nil|intros _; split; discriminate].
    + split; (split; [|split]); vm_compute; discriminate.
    + split; (split; [|split]); vm_compute; discriminate.
  - split; cbn; try discriminate; constructor.
Qed.
