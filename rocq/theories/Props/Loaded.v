(** C17, C19, C20, C34: loading any bytes. *)

From Verif Require Import Model.LoadMsh Spec.Loaded Spec.DataText Spec.Steps Tests.Examples Tests.Examples22 Proofs.BytesP Proofs.Hoare Proofs.TriP Proofs.Compose
  Proofs.Reach Proofs.HeaderP Proofs.Text22P Proofs.LoadedP Proofs.DataTextP.

(** C17: whatever the bytes, in whatever order and repetition of sections (2.2
    ones included, provided the last header is not 2.2). *)
Theorem C17_consistent : forall c b s, load_msh c b = Ok s -> version (mesh_format s) <> str "2.2" -> loaded s.
Proof. exact loaded_not22. Qed.
Print Assumptions C17_consistent.

(** The data sections also of 2.2 files. *)
Theorem C17_data : forall c b s, load_msh c b = Ok s ->
  Forall (data_loaded false) (node_data s) /\ Forall (data_loaded false) (element_data s) /\
  Forall (data_loaded true) (element_node_data s).
Proof. exact loaded_data. Qed.
Print Assumptions C17_data.

Definition line (s : string) : bytes := str s ++ [x0a].
Definition header_41 (binary : bool) : bytes :=
  line "$MeshFormat" ++ (if binary then str "4.1 1 8" ++ [x0a; x01; x00; x00; x00; x0a] else line "4.1 0 8") ++
  line "$EndMeshFormat".

(** A parametric and an ordinary block, an element, data. *)
Definition ex_any : bytes := header_41 false ++
  line "$Nodes" ++ line "2 3 1 3" ++ line "2 1 1 1" ++ line "1" ++ line "0 0 0 .5 .5" ++
  line "0 1 0 2" ++ line "2 3" ++ line "1 0 0 1 2 3" ++ line "$EndNodes" ++
  line "$Elements" ++ line "1 1 1 1" ++ line "1 1 1 1" ++ line "1 1 2" ++ line "$EndElements" ++
  line "$ElementNodeData" ++ line "0 0 3" ++ line "0 1 2" ++ line "1 2 .5 .25" ++ line "2 0" ++ line "$EndElementNodeData".

Example C17_ex : exists s, load_msh c_release ex_any = Ok s /\ version (mesh_format s) <> str "2.2" /\
  map (fun b => zlen (nb_data b)) (n_blocks (nodes s)) = [5; 6] /\ zlen (element_node_data s) = 1.
Proof. eexists. split; [vm_compute; reflexivity|]. split; [discriminate|]. split; vm_compute; reflexivity. Qed.

(** Cut off after the first of six coordinates. *)
Definition ex_cut : bytes := header_41 true ++ line "$Nodes" ++
  List.concat (map (le 8) [1; 2; 1; 2]) ++ le 4 0 ++ le 4 1 ++ le 4 0 ++ le 8 2 ++ le 8 1 ++ le 8 2 ++ le 8 d15 ++ le 2 d15.

Example C17_cut_ex : exists s, load_msh c_release ex_cut = Ok s /\ version (mesh_format s) <> str "2.2" /\
  map (fun b => zlen (nb_data b)) (n_blocks (nodes s)) = [6].
Proof. eexists. split; [vm_compute; reflexivity|]. split; [discriminate|]. vm_compute; reflexivity. Qed.

(** C19 *)
Theorem C19_nodes : forall c spec s u, version (mesh_format spec) = str "4.1" -> file_type (mesh_format spec) <> 0 ->
  load_nodes c spec s = Undef u -> u = SignedOverflow.
Proof.
  intros c spec s u Hv Hf E. unfold load_nodes in E. rewrite Hv in E. change (bytes_eqb (str "4.1") v41s) with true in E.
  apply Z.eqb_neq in Hf. rewrite Hf in E. cbv iota in E.
  set (n := match n_blocks (nodes spec) with [] => _ | _ => _ end) in E.
  pose proof (nodes_binary_tri (fun u => u = SignedOverflow) c n eq_refl s) as H. unfold bind in E.
  destruct (v41_load_nodes_binary c n s) as [[a s1]| |u'| |]; try discriminate. injection E as <-. exact H.
Qed.
Print Assumptions C19_nodes.

(** ... of 3 + entity_dim, in a parametric block. *)
Theorem C19_overflow : forall c b s u, v41_node_block_binary c b s = Undef u ->
  let (dim, s1) := rd_raw_int (nb_dim b) s in let (tag, s2) := rd_raw_int (nb_tag b) s1 in
  let (par, s3) := rd_raw_int (nb_parametric b) s2 in par = 1 /\ INT_MAX - 3 < dim.
Proof. exact node_block_overflow. Qed.
Print Assumptions C19_overflow.

Theorem C19_elements : forall c spec s u, version (mesh_format spec) = str "4.1" -> file_type (mesh_format spec) <> 0 ->
  load_elements c spec s <> Undef u.
Proof.
  intros c spec s u Hv Hf E. unfold load_elements in E. rewrite Hv in E. change (bytes_eqb (str "4.1") v41s) with true in E.
  apply Z.eqb_neq in Hf. rewrite Hf in E. cbv iota zeta in E.
  set (n := match e_blocks (elements spec) with [] => _ | _ => _ end) in E.
  pose proof (elements_binary_tri (fun _ => False) c n s) as H. unfold bind in E.
  destruct (v41_load_elements_binary c n s) as [[a s1]| |u'| |]; try discriminate. exact H.
Qed.
Print Assumptions C19_elements.

Definition spec_41b : MshSpec := set_format {| version := str "4.1"; file_type := 1; data_size := 8 |} spec_default.

(** The overflow does occur. *)
Definition ex_overflow : bytes :=
  x0a :: List.concat (map (le 8) [1; 1; 1; 1]) ++ le 4 INT_MAX ++ le 4 1 ++ le 4 1 ++ le 8 1 ++ le 8 1 ++ le 8 0.
Example C19_ex : load_nodes c_debug spec_41b (opened ex_overflow) = Undef SignedOverflow.
Proof. vm_compute. reflexivity. Qed.

(** C20: three ways to undefined behaviour, in release and debug builds. *)

(** 2^63 points, two numbers each: no memory is allocated for 2^64 numbers. *)
Definition ex_wrap : bytes := header_41 false ++
  line "$Elements" ++ line "1 1 1 1" ++ line "0 1 15 9223372036854775808" ++ line "1 1" ++ line "$EndElements".
(** An element with node 5, the only node being 1. *)
Definition ex_reference : bytes := line "$MeshFormat" ++ line "2.2 0 8" ++ line "$EndMeshFormat" ++
  line "$Nodes" ++ line "1" ++ line "1 0 0 0" ++ line "$EndNodes" ++
  line "$Elements" ++ line "1" ++ line "1 15 2 1 1 5" ++ line "$EndElements".
(** The end of the file where a count should be. *)
Definition ex_short : bytes := header_41 false ++ line "$NodeData".

Theorem C20_refuted : forall c, c = c_release \/ c = c_debug ->
  load_msh c ex_wrap = Undef OutOfBounds /\ load_msh c ex_reference = Undef OutOfBounds /\
  load_msh c ex_short = Undef Indeterminate.
Proof. intros c [->| ->]; (split; [|split]); vm_compute; reflexivity. Qed.
Print Assumptions C20_refuted.

(** C34: a data section that declares fewer than three integer tags, whatever
    follows it. *)
Theorem C34_throws : forall c b name spec w names reals ints t r,
  data_section name -> meets c b name spec (opened (w ++ t ++ r)) -> blank w -> r <> [] ->
  header_laid_out names reals ints t ->
  fits c sz_string (zlen names) -> fits c sz_double (zlen reals) -> fits c sz_int (zlen ints) -> Forall int_ok ints ->
  zlen ints < 3 -> load_msh c b = Throw (InvalidFormat (str "Data requires at least 3 int tags.")).
Proof. exact short_section. Qed.
Print Assumptions C34_throws.

(** So what was loaded has three. *)
Theorem C34_loaded : forall c b s d, load_msh c b = Ok s ->
  In d (node_data s ++ element_data s ++ element_node_data s) -> 3 <= zlen (int_tags (d_header d)).
Proof.
  intros c b s d HL HI. destruct (loaded_data c b s HL) as (A & B & C). rewrite Forall_forall in A, B, C.
  assert (G : exists e, data_loaded e d).
  { apply in_app_or in HI. destruct HI as [HI|HI]; [exists false; auto|].
    apply in_app_or in HI. destruct HI as [HI|HI]; [exists false; auto|exists true; auto]. }
  destruct G as (e & i0 & i1 & i2 & more & -> & _). rewrite !zlen_cons. pose proof (zlen_nonneg _ more). lia.
Qed.
Print Assumptions C34_loaded.

(** One name, one real, two integers. *)
Definition ex_few : bytes := str "1" ++ [x0a] ++ quoted (str "my ""field""") ++ [x0a] ++ str "1" ++ [x0a] ++
  str "1.5e0" ++ [x20] ++ str "2" ++ [x0a] ++ str "0" ++ [x20] ++ str "-3" ++ [x0a].
Definition ex_few_file : bytes := header_22 true ++ str "$ElementData" ++ [x0a] ++ ex_few ++ line "7 and so on".

Example C34_ex : load_msh c_debug ex_few_file = Throw (InvalidFormat (str "Data requires at least 3 int tags.")).
Proof.
  apply (C34_throws c_debug _ (str "$ElementData") (set_format (format_22 true) spec_default) [x0a]
           [str "my ""field"""] [d15] [0; -3] ex_few (line "7 and so on")).
  - right. left. reflexivity.
  - apply meets_after.
    + apply LOADS_complete. apply header_LOADS.
    + intros u Hu. apply rd_token_text; [exact Hu|ex_words|reflexivity].
  - repeat constructor.
  - discriminate.
  - exists [str "1.5e0"]. split.
    + constructor; [ex_denotes|constructor].
    + ex_laid.
  - split; vm_compute; discriminate.
  - split; vm_compute; discriminate.
  - split; vm_compute; discriminate.
  - repeat constructor; discriminate.
  - reflexivity.
Qed.
