(** C84: what is not in the file is not in the mesh. *)

From Verif Require Import Model.LoadMsh Spec.Absent Tests.Examples Proofs.File22P Proofs.LoadedP Proofs.AbsentP.

(** Nodes, elements and entities, in both versions. The entities of a 2.2 file come from its elements. *)
Theorem C84_mesh : forall c b s, load_msh c b = Ok s ->
  (~ occurs (str "$Nodes") b -> nodes s = n_default) /\
  (~ occurs (str "$Elements") b -> elements s = e_default) /\
  (~ occurs (str "$Entities") b -> ~ occurs (str "$Elements") b -> entities s = entities spec_default).
Proof.
  intros c b s HL. destruct (load_ends c b s HL) as (raw & (s0 & R & _) & E). split; [|split].
  - intro N. apply (post_no_nodes c raw s E). exact (absent_reached _ _ _ c b only_nodes (one _ _ N) _ R).
  - intro N. apply (post_no_elements c raw s E). exact (absent_reached _ _ _ c b only_elements (one _ _ N) _ R).
  - intros N N'. apply (absent_end _ _ _ c b s only_entities); [|exact HL|exact (two _ _ _ N N')]. intros raw' E'. apply (post_rest c raw' s E').
Qed.
Print Assumptions C84_mesh.

(** The rest. *)
Theorem C84_rest : forall c b s, load_msh c b = Ok s ->
  (~ occurs (str "$MeshFormat") b -> mesh_format s = {| version := str "4.1"; file_type := 0; data_size := 8 |}) /\
  (~ occurs (str "$PhysicalNames") b -> physical_groups s = []) /\
  (~ occurs (str "$NodeData") b -> node_data s = []) /\
  (~ occurs (str "$ElementData") b -> element_data s = []) /\
  (~ occurs (str "$ElementNodeData") b -> element_node_data s = []) /\
  (~ occurs (str "$NanoSplineFormat") b -> ns_version s = str "1.0") /\
  (~ occurs (str "$Curves") b -> curves s = []) /\
  (~ occurs (str "$Patches") b -> patches s = []).
Proof.
  intros c b s HL. repeat apply conj; intro N.
  - apply (absent_end _ _ _ c b s only_format); [|exact HL|exact (one _ _ N)]. intros raw E. apply (post_data c raw s E).
  - apply (absent_end _ _ _ c b s only_groups); [|exact HL|exact (one _ _ N)]. intros raw E. apply (post_rest c raw s E).
  - apply (absent_end _ _ _ c b s only_node_data); [|exact HL|exact (one _ _ N)]. intros raw E. apply (post_data c raw s E).
  - apply (absent_end _ _ _ c b s only_element_data); [|exact HL|exact (one _ _ N)]. intros raw E. apply (post_data c raw s E).
  - apply (absent_end _ _ _ c b s only_element_node_data); [|exact HL|exact (one _ _ N)]. intros raw E. apply (post_data c raw s E).
  - apply (absent_end _ _ _ c b s only_ns); [|exact HL|exact (one _ _ N)]. intros raw E. apply (post_rest c raw s E).
  - apply (absent_end _ _ _ c b s only_curves); [|exact HL|exact (one _ _ N)]. intros raw E. apply (post_rest c raw s E).
  - apply (absent_end _ _ _ c b s only_patches); [|exact HL|exact (one _ _ N)]. intros raw E. apply (post_rest c raw s E).
Qed.
Print Assumptions C84_rest.

(** ** Cases *)

(** A 2.2 file with nodes and a name. *)
Definition ex_absent : bytes := str "$MeshFormat 2.2 0 8 $EndMeshFormat $PhysicalNames 1 2 7 ""$Curves"" $EndPhysicalNames $Nodes 1 3 0 0 0 $EndNodes ".

Example C84_hyp : (exists s, load_msh c_debug ex_absent = Ok s /\ nodes s <> n_default /\ physical_groups s <> []) /\
  ~ occurs (str "$Elements") ex_absent /\ ~ occurs (str "$Entities") ex_absent /\ ~ occurs (str "$NodeData") ex_absent /\
  ~ occurs (str "$ElementData") ex_absent /\ ~ occurs (str "$ElementNodeData") ex_absent /\ ~ occurs (str "$NanoSplineFormat") ex_absent /\
  ~ occurs (str "$Patches") ex_absent.
Proof.
  split; [eexists; split; [vm_compute; reflexivity|split; discriminate]|].
  repeat apply conj; intro H; apply occursb_true in H; vm_compute in H; discriminate.
Qed.

Example C84_hyp_none : load_msh c_debug (str "nothing ") = Ok spec_default /\ ~ occurs (str "$Nodes") (str "nothing ") /\
  ~ occurs (str "$MeshFormat") (str "nothing ") /\ ~ occurs (str "$PhysicalNames") (str "nothing ") /\ ~ occurs (str "$Curves") (str "nothing ").
Proof.
  split; [vm_compute; reflexivity|]. repeat apply conj; intro H; apply occursb_true in H; vm_compute in H; discriminate.
Qed.
