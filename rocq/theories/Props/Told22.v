(** C60: what is loaded from 2.2 files is written in them, in debug builds. *)

From Verif Require Import Model.LoadMsh Spec.Told22 Spec.Steps Tests.Examples Proofs.BytesP Proofs.Trace Proofs.Told22NodesP Proofs.Told22ElemsP
  Proofs.Told22FileP Proofs.Told22OneP.

(** One $Elements section, in any build: all its elements are written in it; or
    reading failed in it, and after those that are written one element fills
    up the count. *)
Theorem C60_elements : forall c spec s spec' s', version (mesh_format spec) = str "2.2" -> load_elements c spec s = Ok (spec', s') ->
  exists l ascii, mesh_elements (elements spec') = mesh_elements (elements spec) ++ map rec_element l /\ nodes spec' = nodes spec /\
    entities_added l (entities spec) (entities spec') /\ Forall rec_ok l /\
  ((good s' = true /\ exists t, rest s = t ++ rest s' /\ elements22 ascii l t (rest s')) \/
   (good s' = false /\ elements22_cut ascii l (rest s))).
Proof. exact elements22_section. Qed.
Print Assumptions C60_elements.

(** One $Nodes section, in debug builds: all its nodes are written in it, except
    for the last bytes of the last node of a binary file that ends there. *)
Theorem C60_nodes : forall c spec s spec' s', ndebug c = false -> version (mesh_format spec) = str "2.2" -> load_nodes c spec s = Ok (spec', s') ->
  exists l ascii, mesh_nodes (nodes spec') = mesh_nodes (nodes spec) ++ l /\ elements spec' = elements spec /\ entities spec' = entities spec /\
  ((good s' = true /\ exists t, rest s = t ++ rest s' /\ nodes22 ascii l t (rest s')) \/
   (good s' = false /\ ascii = false /\ nodes22_cut l (rest s))).
Proof. exact nodes22_section. Qed.
Print Assumptions C60_nodes.

(** Whole files. *)
Theorem C60_mesh : forall c b s, ndebug c = false -> all_22 c b -> version (mesh_format s) = str "2.2" -> load_msh c b = Ok s ->
  exists ps, written22 b ps /\ holds22 ps s.
Proof. intros c b s D. exact (told22 c D b s). Qed.
Print Assumptions C60_mesh.

(** Sections that are there take at least three bytes for each node and element. *)
Theorem C60_length : forall b ps r, parts_in b ps r -> (3 * (List.length (all_nodes ps) + List.length (all_recs ps)) + List.length r <= List.length b)%nat.
Proof. exact parts_length. Qed.
Print Assumptions C60_length.

Definition is_22_all (name : bytes) (spec : MshSpec) : bool :=
  bytes_eqb name (str "$MeshFormat") || bytes_eqb (version (mesh_format spec)) (str "2.2").
Lemma all_22_of : forall c b f r, trace is_22_all c f spec_default (opened b) = Some r -> all_22 c b.
Proof.
  intros c b f r G w spec s Mt N. pose proof (trace_meets is_22_all _ _ _ _ G _ _ _ Mt) as K. unfold is_22_all in K.
  destruct N as [->|[-> | ->]]; change (bytes_eqb (str _) (str "$MeshFormat")) with false in K; apply bytes_eqb_eq; exact K.
Qed.

Definition ex_whole : bytes := str "$MeshFormat 2.2 0 8 $EndMeshFormat $Nodes 2 3 0 0 0 1 0 0 0 $EndNodes $Elements 1 7 1 2 9 4 3 1 $EndElements ".
Example C60_ex : all_22 c_debug ex_whole /\ exists s, load_msh c_debug ex_whole = Ok s /\ version (mesh_format s) = str "2.2" /\
  map n_tag (mesh_nodes (nodes s)) = [3; 1] /\ mesh_elements (elements s) = [rec_element {| er_id := 7; er_type := 1; er_tags := [9; 4]; er_nodes := [3; 1] |}].
Proof.
  split.
  - assert (G : exists r, trace is_22_all c_debug 60 spec_default (opened ex_whole) = Some r) by (eexists; vm_compute; reflexivity).
    destruct G as (r & G). exact (all_22_of _ _ _ _ G).
  - eexists. split; [vm_compute; reflexivity|]. repeat split; vm_compute; reflexivity.
Qed.

(** The exception is needed: of a file that ends inside an element debug builds
    load as many elements as the count says, all like the last. *)
Definition ex_short : bytes := str "$MeshFormat 2.2 0 8 $EndMeshFormat $Nodes 1 1 0 0 0 $EndNodes $Elements 40 1 15 0 1".
Theorem C60_refuted_cut : exists b s, all_22 c_debug b /\ version (mesh_format s) = str "2.2" /\ load_msh c_debug b = Ok s /\
  mesh_elements (elements s) = repeat (rec_element {| er_id := 1; er_type := 15; er_tags := []; er_nodes := [1] |}) 40 /\
  ~ exists ps r, parts_in b ps r /\ holds22 ps s.
Proof.
  assert (G : exists r, trace is_22_all c_debug 60 spec_default (opened ex_short) = Some r) by (eexists; vm_compute; reflexivity).
  destruct G as (r & G).
  assert (X : exists s, load_msh c_debug ex_short = Ok s /\ version (mesh_format s) = str "2.2" /\
    mesh_elements (elements s) = repeat (rec_element {| er_id := 1; er_type := 15; er_tags := []; er_nodes := [1] |}) 40).
  { eexists. split; [vm_compute; reflexivity|]. split; vm_compute; reflexivity. }
  destruct X as (s & E & V & M). exists ex_short, s. split; [exact (all_22_of _ _ _ _ G)|]. split; [exact V|]. split; [exact E|]. split; [exact M|].
  intros (ps & q & P & [_ H _]). apply parts_length in P. rewrite M in H. apply (f_equal (@List.length _)) in H. rewrite repeat_length, map_length in H.
  assert (L : (List.length ex_short < 100)%nat) by (apply Nat.ltb_lt; reflexivity). lia.
Qed.
Print Assumptions C60_refuted_cut.

(** In release builds nodes can be loaded that are nowhere in the file. *)
Definition ex_release : bytes := str "$MeshFormat 2.2 0 8 $EndMeshFormat $Nodes 40 1 0 0 0 ".
Theorem C60_refuted_release : exists b s, all_22 c_release b /\ version (mesh_format s) = str "2.2" /\ load_msh c_release b = Ok s /\
  ~ exists ps, written22 b ps /\ holds22 ps s.
Proof.
  assert (G : exists r, trace is_22_all c_release 60 spec_default (opened ex_release) = Some r) by (eexists; vm_compute; reflexivity).
  destruct G as (r & G).
  assert (X : exists s, load_msh c_release ex_release = Ok s /\ version (mesh_format s) = str "2.2" /\ List.length (mesh_nodes (nodes s)) = 40%nat).
  { eexists. split; [vm_compute; reflexivity|]. split; vm_compute; reflexivity. }
  destruct X as (s & E & V & M). exists ex_release, s. split; [exact (all_22_of _ _ _ _ G)|]. split; [exact V|]. split; [exact E|].
  intros (ps & P & [H _ _]). apply written_nodes_length in P. rewrite H in M.
  assert (L : (List.length ex_release < 100)%nat) by (apply Nat.ltb_lt; reflexivity). lia.
Qed.
Print Assumptions C60_refuted_release.
