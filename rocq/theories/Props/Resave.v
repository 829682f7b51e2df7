(** C80: whatever loads as version 4.1 can be saved. *)

From Verif Require Import Model.LoadMsh Model.Save Spec.Resave Spec.Rounding Tests.Examples
  Proofs.RtStep Proofs.ShowP Proofs.RoundP Proofs.RewriteP Proofs.ResaveP Proofs.DistinctP Props.RoundTrip41.

(** Any bytes that load: the mesh can be saved as binary in a build [c'], perhaps another one,
    and comes back. *)
Theorem C80_binary : exists r, (forall x, size_ok x -> finite x -> six_digits_of x (r x)) /\ forall c c' b s,
  load_msh c b = Ok s -> version (mesh_format s) = str "4.1" -> sober s -> roomy c' s ->
  exists b', save_msh c' (as_type false s) = (b', Ok tt) /\
    load_msh c' b' = Ok (via41 false r (nanospline c') (as_type false s)).
Proof.
  destruct C01_binary41_roundtrip as (r & R & H). exists r. split; [exact R|]. intros c c' b s L V S M.
  apply H. apply (resaved c c' false b s L V S M). discriminate.
Qed.
Print Assumptions C80_binary.

(** Unchanged, unless there are real tags, data tags that are no ints, or sections that a count
    of zero or a missing extension leaves out. *)
Theorem C80_lossless : forall c c' b s,
  load_msh c b = Ok s -> version (mesh_format s) = str "4.1" -> sober s -> roomy c' s -> lossless c' s ->
  exists b', save_msh c' (as_type false s) = (b', Ok tt) /\ load_msh c' b' = Ok (as_type false s).
Proof.
  intros c c' b s L V S M LL. destruct C80_binary as (r & _ & H). destruct (H c c' b s L V S M) as (b' & E1 & E2).
  exists b'. split; [exact E1|]. rewrite E2. f_equal. apply lossless_via. destruct LL. split; assumption.
Qed.
Print Assumptions C80_lossless.

(** As text too if all numbers are finite. *)
Theorem C80_text : exists r, (forall x, size_ok x -> finite x -> six_digits_of x (r x)) /\ forall c c' b s,
  load_msh c b = Ok s -> version (mesh_format s) = str "4.1" -> sober s -> roomy c' s -> textual c' s ->
  exists b', save_msh c' (as_type true s) = (b', Ok tt) /\
    load_msh c' b' = Ok (via41 true r (nanospline c') (as_type true s)).
Proof.
  destruct C02_ascii41_roundtrip as (r & R & H). exists r. split; [exact R|]. intros c c' b s L V S M T.
  apply H. apply (resaved c c' true b s L V S M). intros _. exact T.
Qed.
Print Assumptions C80_text.

(** ** Cases *)

(** No $MeshFormat, junk, and a file that ends within the last section. *)
Definition ex_junk : bytes := str "junk $Nodes 1 2 7 8 0 1 0 2 7 8 0 0 0 0 0 0 $EndNodes $Junk 5 5 $EndJunk $Elements 1 1 1 1 1 1 1 1 1 7 8".

Definition ex_junk_spec : MshSpec :=
  {| mesh_format := {| version := str "4.1"; file_type := 0; data_size := 8 |};
     nodes := {| n_num_blocks := 1; n_num_nodes := 2; n_min := 7; n_max := 8;
       n_blocks := [{| nb_dim := 0; nb_tag := 1; nb_parametric := 0; nb_num := 2; nb_tags := [7; 8]; nb_data := [0; 0; 0; 0; 0; 0] |}] |};
     elements := {| e_num_blocks := 1; e_num_elements := 1; e_min := 1; e_max := 1;
       e_blocks := [{| eb_dim := 1; eb_tag := 1; eb_type := 1; eb_num := 1; eb_data := [1; 7; 8] |}] |};
     entities := {| points := []; curves_e := []; surfaces_e := []; volumes_e := [] |};
     physical_groups := []; node_data := []; element_data := []; element_node_data := [];
     ns_version := str "1.0"; curves := []; patches := [] |}.

Lemma one_block : forall A (P : A -> Prop) x, P x -> Forall P [x].
Proof. intros A P x H. constructor; [exact H|constructor]. Qed.

Example C80_hyp : load_msh c_release ex_junk = Ok ex_junk_spec /\ version (mesh_format ex_junk_spec) = str "4.1" /\ sober ex_junk_spec /\ roomy c_debug ex_junk_spec /\ textual c_debug ex_junk_spec /\ lossless c_debug ex_junk_spec.
Proof.
  split; [vm_compute; reflexivity|]. split; [reflexivity|]. split; [|split; [|split]].
  - split; cbn; repeat match goal with |- Forall _ [] => constructor | |- Forall _ [_] => apply one_block end.
    + vm_compute. split; congruence.
    + intros n H. vm_compute in H. injection H as <-. reflexivity.
  - split; cbn; repeat match goal with |- _ /\ _ => split | |- Forall _ [] => constructor | |- Forall _ [_] => apply one_block end;
      split; vm_compute; discriminate.
  - split; cbn; repeat match goal with |- Forall _ [] => constructor | |- Forall _ [_] => apply one_block end.
    split; [repeat (apply Forall_cons; [vm_compute; discriminate|]); apply Forall_nil|intros _; split; discriminate].
  - split; cbn; try discriminate; constructor.
Qed.

(** Negative counts: minus one value for each of minus one node is one value. The file loads and its
    mesh can be saved, but loading the saved text is undefined. *)
Definition ex_negative : bytes := str "$MeshFormat 4.1 1 8" ++ x0a :: [x01; x00; x00; x00] ++
  str "$EndMeshFormat $ElementNodeData 0 0 3 0 -1 1" ++ x0a :: le 4 7 ++ le 4 (2 ^ 32 - 1) ++ le 8 0 ++ str "$EndElementNodeData".

Definition ex_negative_spec : MshSpec :=
  {| mesh_format := {| version := str "4.1"; file_type := 1; data_size := 8 |}; nodes := n_default; elements := e_default;
     entities := {| points := []; curves_e := []; surfaces_e := []; volumes_e := [] |};
     physical_groups := []; node_data := []; element_data := [];
     element_node_data := [{| d_header := {| string_tags := []; real_tags := []; int_tags := [0; -1; 1] |};
       d_entries := [{| de_tag := 7; de_npe := -1; de_data := [0] |}] |}];
     ns_version := str "1.0"; curves := []; patches := [] |}.

Theorem C80_negative_refuted : exists b s b', load_msh c_release b = Ok s /\ version (mesh_format s) = str "4.1" /\
  roomy c_release s /\ textual c_release s /\
  save_msh c_release (as_type true s) = (b', Ok tt) /\ load_msh c_release b' = Undef OutOfBounds.
Proof.
  exists ex_negative, ex_negative_spec, (fst (save_msh c_release (as_type true ex_negative_spec))).
  split; [vm_compute; reflexivity|]. split; [reflexivity|]. split; [|split; [|split]].
  - split; cbn; repeat match goal with |- _ /\ _ => split | |- Forall _ [] => constructor | |- Forall _ [_] => apply one_block
      | |- roomy_data _ _ => split; [|split; [|split; [|split]]]; cbn end; split; vm_compute; discriminate.
  - split; cbn; repeat match goal with |- Forall _ [] => constructor | |- Forall _ [_] => apply one_block; cbn end. vm_compute. discriminate.
  - vm_compute. reflexivity.
  - vm_compute. reflexivity.
Qed.
Print Assumptions C80_negative_refuted.
