(** C72: how much memory a 2.2 file needs. *)

From Verif Require Import Model.LoadMsh Spec.Memory22 Spec.Builds Tests.Examples Tests.Examples22 Proofs.BytesP Proofs.PostP Proofs.File22P Proofs.BuildsP
  Proofs.Trace Proofs.Memory22P Props.Builds Props.Regroup.

(** With nodes: the distance of the tags decides. *)
Theorem C72_span : forall c b raw, 0 <= mem c -> file_22 c b raw -> mesh_nodes (nodes raw) <> [] ->
  by_span c raw (load_msh c b).
Proof. exact spans. Qed.
Print Assumptions C72_span.

(** Without. *)
Theorem C72_no_nodes : forall c b raw, 16 <= mem c -> file_22 c b raw -> mesh_nodes (nodes raw) = [] ->
  (harmless raw /\ exists s, load_msh c b = Ok s) \/ (~ harmless raw /\ load_msh c b = Undef OutOfBounds).
Proof. exact no_nodes_span. Qed.
Print Assumptions C72_no_nodes.

(** ** Two nodes *)

Definition two_nodes (t u : string) : bytes := str "$MeshFormat
2.2 0 8
$EndMeshFormat
$Nodes
2
" ++ str t ++ str " 0 0 0
" ++ str u ++ str " 0 0 0
$EndNodes
".

Definition small_cfg (n : bool) : cfg := {| ndebug := false; nanospline := n; mem := 1000 |}.
Lemma small_eases : forall c, 1000 <= mem c -> eases (small_cfg (nanospline c)) c.
Proof. intros c H. split; [discriminate|]. split; [reflexivity|exact H]. Qed.

Definition two_nodes_mesh (t u : Z) : MshSpec :=
  set_nodes {| n_num_blocks := 1; n_num_nodes := 2; n_min := t; n_max := u;
    n_blocks := [ {| nb_dim := 0; nb_tag := 0; nb_parametric := 0; nb_num := 2; nb_tags := [t; u]; nb_data := [0; 0; 0; 0; 0; 0] |} ] |}
  (set_format {| version := str "2.2"; file_type := 0; data_size := 8 |} spec_default).

(** 85 bytes that need eight petabytes ... *)
Theorem C72_petabytes : forall c, 1000 <= mem c ->
  zlen (two_nodes "1" "1000000000000000") = 85 /\
  load_msh c (two_nodes "1" "1000000000000000") =
    if mem c <? 8000000000000000 then Throw BadAlloc else Ok (two_nodes_mesh 1 1000000000000000).
Proof.
  intros c M. split; [reflexivity|]. destruct (mem c <? 8000000000000000) eqn:E.
  - apply Z.ltb_lt in E.
    assert (L : exists raw s, load_loop (S (S (List.length (two_nodes "1" "1000000000000000")))) (small_cfg (nanospline c)) spec_default
      (opened (two_nodes "1" "1000000000000000")) = Ok (raw, s) /\ version (mesh_format raw) = str "2.2" /\
      n_min (nodes raw) = 1 /\ n_max (nodes raw) = 1000000000000000).
    { destruct (nanospline c); (do 2 eexists; split; [vm_compute; reflexivity|split; [reflexivity|split; reflexivity]]). }
    destruct L as (raw & s & L & V & N1 & N2). unfold load_msh, load_msh_fuel.
    destruct (same_loop _ _ (small_eases c M) (S (S (List.length (two_nodes "1" "1000000000000000")))) spec_default
      (opened (two_nodes "1" "1000000000000000"))) as [X|[X|X]]; [rewrite X in L; discriminate|rewrite X in L; discriminate|].
    rewrite X, L. cbn [obind fst]. apply post_alloc; [exact V|]. unfold size_of. rewrite N1, N2.
    change (to_size (1000000000000000 - 1 + 1)) with 1000000000000000. unfold can_hold.
    change (PTRDIFF_MAX / sz_size <? 1000000000000000) with false. change (1000000000000000 <=? zlen (@nil Z)) with false. cbv iota.
    replace (mem c <? 1000000000000000 * sz_size) with true by (symmetry; apply Z.ltb_lt; change sz_size with 8; lia). reflexivity.
  - apply Z.ltb_ge in E.
    apply (C53_mesh {| ndebug := false; nanospline := nanospline c; mem := 8000000000000000 |}).
    + split; [discriminate|]. split; [reflexivity|exact E].
    + destruct (nanospline c); vm_compute; reflexivity.
Qed.
Print Assumptions C72_petabytes.

(** ... 88 bytes that no machine can load ... *)
Theorem C72_never : forall c, 1000 <= mem c ->
  load_msh c (two_nodes "1" "9000000000000000000") = Throw LengthError.
Proof.
  intros c M.
  assert (L : load_msh (small_cfg (nanospline c)) (two_nodes "1" "9000000000000000000") = Throw LengthError)
    by (destruct (nanospline c); vm_compute; reflexivity).
  rewrite <- L. apply (C53_load _ _ _ (small_eases c M)); rewrite L; discriminate.
Qed.
Print Assumptions C72_never.

(** ... and the range that overflows. *)
Theorem C72_overflow : forall c, 1000 <= mem c ->
  load_msh c (two_nodes "0" "18446744073709551615") = Undef OutOfBounds.
Proof.
  intros c M.
  assert (L : load_msh (small_cfg (nanospline c)) (two_nodes "0" "18446744073709551615") = Undef OutOfBounds)
    by (destruct (nanospline c); vm_compute; reflexivity).
  rewrite <- L. apply (C53_load _ _ _ (small_eases c M)); rewrite L; discriminate.
Qed.
Print Assumptions C72_overflow.

Definition no_nodes_22 (t : string) : bytes := str "$MeshFormat
2.2 0 8
$EndMeshFormat
$Elements
1
1 15 0 " ++ str t ++ str "
$EndElements
".

Example C72_hyp :
  (exists raw, file_22 c_debug (two_nodes "1" "18446744073709551615") raw /\ mesh_nodes (nodes raw) <> []) /\
  (exists raw, file_22 c_debug (no_nodes_22 "0") raw /\ mesh_nodes (nodes raw) = [] /\ mesh_elements (elements raw) <> []).
Proof.
  split.
  - destruct (trace is_22 c_debug 40 spec_default (opened (two_nodes "1" "18446744073709551615"))) as [r|] eqn:E; [|vm_compute in E; discriminate].
    exists (fst r). split; [apply (trace_22 _ _ _ _ E)|]; vm_compute in E; injection E as <-; [reflexivity|vm_compute; discriminate].
  - destruct (trace is_22 c_debug 40 spec_default (opened (no_nodes_22 "0"))) as [r|] eqn:E; [|vm_compute in E; discriminate].
    exists (fst r). split; [apply (trace_22 _ _ _ _ E)|split]; vm_compute in E; injection E as <-; [reflexivity|reflexivity|vm_compute; discriminate].
Qed.

(** No nodes: a reference to node 0 loads, any other is out of bounds. *)
Example C72_no_nodes_ex : (exists s, load_msh c_debug (no_nodes_22 "0") = Ok s) /\
  load_msh c_debug (no_nodes_22 "1") = Undef OutOfBounds.
Proof. split; [eexists|]; vm_compute; reflexivity. Qed.
