(** C61: what can go wrong when the end of a file is missing. *)

From Verif Require Import Model.Save Spec.Consistent Spec.Consistent22 Spec.Steps Spec.Prefix Spec.Hazards Tests.Examples Tests.ExamplesRt22
  Proofs.BytesP Proofs.RtBase Proofs.Rt41A Proofs.Rt41 Proofs.Rt22 Proofs.Compose Proofs.Final Proofs.Final22 Proofs.Trace Proofs.CutsP Proofs.KeepP Proofs.CutFailP Proofs.CutSavedP.
From Verif Require Props.Loaded.

(** All builds and versions: if loading a part of the file never ends, neither
    does loading all of it. *)
Theorem C61_hang : forall c p q, load_msh c p = Diverge -> load_msh c (p ++ q) = Diverge.
Proof. exact hang_more. Qed.
Print Assumptions C61_hang.

Example C61_hang_ex : load_msh c_release (Props.Loaded.header_41 false ++ str "$Nodes x ") = Diverge.
Proof. vm_compute. reflexivity. Qed.

(** So no beginning of a saved file makes it hang. *)
Theorem C61_saved_hang : forall c a s p q, consistent41 c a s \/ consistent22 c a s ->
  save_msh c s = (p ++ q, Ok tt) -> load_msh c p <> Diverge.
Proof.
  intros c a s p q K E H. apply (hang_more c p q) in H. destruct K as [K|K].
  - destruct (rt41 a) as (r & _ & R). destruct (R c s K) as (b & E' & L). rewrite E in E'. injection E' as <-. congruence.
  - destruct (rt22 a) as (r & _ & R). destruct (R c s K) as (b & s' & E' & L & _). rewrite E in E'. injection E' as <-. congruence.
Qed.
Print Assumptions C61_saved_hang.

(** All builds: without the count that follows the name of these sections, an
    uninitialised variable is used. *)
Theorem C61_marker : forall c p spec w t, complete c p spec ->
  In w ["$PhysicalNames"; "$NodeData"; "$ElementData"; "$ElementNodeData"]%string -> Forall (fun b => is_ws b = true) t ->
  load_msh c (p ++ str w ++ t) = Undef Indeterminate.
Proof. exact marker_cut. Qed.
Print Assumptions C61_marker.

(** So there is such a cut in every saved file with groups or data. *)
Theorem C61_saved_cut : forall c a s, consistent41 c a s \/ consistent22 c a s ->
  physical_groups s <> [] \/ node_data s <> [] \/ element_data s <> [] \/ element_node_data s <> [] ->
  exists p q, save_msh c s = (p ++ q, Ok tt) /\ load_msh c p = Undef Indeterminate.
Proof.
  intros c a s K A. destruct K as [K|K].
  - destruct (rt41 a) as (r & _ & R). destruct (R c s K) as (b & E & _).
    destruct (cut_saved41 c a s b K E A) as (p & q & -> & L). exists p, q. auto.
  - destruct (rt22 a) as (r & _ & R). destruct (R c s K) as (b & s' & E & _).
    destruct (cut_saved22 c a s b K E A) as (p & q & -> & L). exists p, q. auto.
Qed.
Print Assumptions C61_saved_cut.

Example C61_saved_cut_ex : forall c a v, c = c_release \/ c = c_debug -> v = str "4.1" \/ v = str "2.2" ->
  (consistent41 c a (ex_spec v a) \/ consistent22 c a (ex_spec v a)) /\ physical_groups (ex_spec v a) <> [] /\ node_data (ex_spec v a) <> [].
Proof.
  intros c a v [-> | ->] [-> | ->]; (split; [first [left; apply ex_spec_41|right; apply ex_spec_22]|split; discriminate]).
Qed.

(** Debug builds, files that load and are never read as 2.2: undefined behaviour
    comes from a section other than $Nodes, read as 4.1. *)
Theorem C61_undefined : forall c p q x u, ndebug c = false -> never_22 c (p ++ q) -> load_msh c (p ++ q) = Ok x -> load_msh c p = Undef u ->
  exists w spec s, meets c p (str w) spec s /\ v41 (mesh_format spec) /\ hazard c (mesh_format spec) w u /\ w <> "$Nodes"%string.
Proof.
  intros c p q x u D N L E. destruct (cut_hazard c p q x u D N L E) as (w & spec & s & Mt & _ & V & H & NN). exists w, spec, s. auto.
Qed.
Print Assumptions C61_undefined.

(** The same for exceptions. *)
Theorem C61_exception : forall c p q x e, ndebug c = false -> never_22 c (p ++ q) -> load_msh c (p ++ q) = Ok x -> load_msh c p = Throw e ->
  exists w spec s, meets c p (str w) spec s /\ v41 (mesh_format spec) /\ refusal c (mesh_format spec) w e /\ w <> "$Nodes"%string.
Proof. exact cut_refusal. Qed.
Print Assumptions C61_exception.

(** When the file is binary besides, only uninitialised variables are left. *)
Theorem C61_binary : forall c p q x u, ndebug c = false -> never_22 c (p ++ q) ->
  (forall name spec s, meets c (p ++ q) name spec s -> name <> str "$MeshFormat" -> 0 < file_type (mesh_format spec)) ->
  load_msh c (p ++ q) = Ok x -> load_msh c p = Undef u -> u = Indeterminate.
Proof. exact cut_binary. Qed.
Print Assumptions C61_binary.

Definition small (rest : bytes) : bytes := Props.Loaded.header_41 true ++ str "$PhysicalNames" ++ rest.
Example C61_binary_ex : exists x, let p := small [] in let q := str " 0 $EndPhysicalNames " in
  never_22 c_debug (p ++ q) /\
  (forall name spec s, meets c_debug (p ++ q) name spec s -> name <> str "$MeshFormat" -> 0 < file_type (mesh_format spec)) /\
  load_msh c_debug (p ++ q) = Ok x /\ load_msh c_debug p = Undef Indeterminate.
Proof.
  set (ok := fun name spec => bytes_eqb (version (mesh_format spec)) (str "4.1") &&
    (bytes_eqb name (str "$MeshFormat") || (0 <? file_type (mesh_format spec)))).
  assert (G : exists r, trace ok c_debug 100 spec_default (opened (small [] ++ str " 0 $EndPhysicalNames ")) = Some r /\ version (mesh_format (fst r)) = str "4.1").
  { eexists. split; [vm_compute; reflexivity|reflexivity]. }
  destruct G as (r & G & V). eexists. cbv zeta. split; [|split; [|split; vm_compute; reflexivity]].
  - intros pt R. apply (trace_points ok c_debug (fun spec => version (mesh_format spec) <> str "2.2") _ _ _ G); [|rewrite V; discriminate|exact R].
    intros name spec K. unfold ok in K. apply andb_true_iff in K. destruct K as (K & _). apply bytes_eqb_eq in K. rewrite K. discriminate.
  - intros name spec s Mt N. pose proof (trace_meets ok _ _ _ _ G _ _ _ Mt) as K. unfold ok in K. apply andb_true_iff in K. destruct K as (_ & K).
    apply bytes_eqb_neq in N. rewrite N in K. apply Z.ltb_lt. exact K.
Qed.

Example C61_exception_ex : exists x, let p := Props.Loaded.header_41 false ++ str "$Elements 1 1 1 1 0 1 " in let q := str "15 1 1 1 $EndElements " in
  load_msh c_debug (p ++ q) = Ok x /\ load_msh c_debug p = Throw (UnsupportedFeature (str "Unsupported element type: 0")).
Proof. eexists. cbv zeta. split; vm_compute; reflexivity. Qed.

(** Saved files are such files. *)
Theorem C61_saved : forall c a s p q u, consistent41 c a s -> ndebug c = false -> save_msh c s = (p ++ q, Ok tt) -> load_msh c p = Undef u ->
  exists w spec st, meets c p (str w) spec st /\ v41 (mesh_format spec) /\ hazard c (mesh_format spec) w u /\ w <> "$Nodes"%string.
Proof.
  intros c a s p q u K D E L. destruct (rt41 a) as (r & _ & R). destruct (R c s K) as (b & E' & LB). rewrite E in E'. injection E' as <-.
  eapply C61_undefined; try eassumption. destruct (piece41_in c a s K) as (t & E' & H). rewrite E in E'. injection E' as <-.
  intros pt RP. apply (loaded_in _ _ _ _ _ H pt RP).
Qed.
Print Assumptions C61_saved.

(** In 2.2 files a number that is cut short is taken for the whole number: a
    file that loads, and a beginning of it that does not. *)
Definition file_of (last : string) : bytes := Props.Loaded.line "$MeshFormat" ++ Props.Loaded.line "2.2 0 8" ++ Props.Loaded.line "$EndMeshFormat" ++
  Props.Loaded.line "$Nodes" ++ Props.Loaded.line "3" ++ Props.Loaded.line "10 0 0 0" ++ Props.Loaded.line "11 0 0 0" ++ Props.Loaded.line "12 0 0 0" ++
  Props.Loaded.line "$EndNodes" ++ Props.Loaded.line "$Elements" ++ Props.Loaded.line "1" ++ str last.

Theorem C61_refuted : forall c, c = c_release \/ c = c_debug -> exists p q x,
  load_msh c (p ++ q) = Ok x /\ load_msh c p = Undef OutOfBounds.
Proof.
  intros c H. exists (file_of "1 15 2 0 1 1"), (str "2" ++ x0a :: str "$EndElements"). eexists.
  destruct H as [-> | ->]; (split; vm_compute; reflexivity).
Qed.
Print Assumptions C61_refuted.
