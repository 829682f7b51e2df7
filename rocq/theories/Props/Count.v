(** C35: the element count of 2.2 binary $Elements sections.  [block22_bytes]
    is a block as written in the file: type, number of elements and number of
    tags, then the elements. *)

From Verif Require Import Model.LoadMsh Spec.Text22 Spec.Numerals Tests.Examples Tests.Examples22 Proofs.Compose Proofs.Reach
  Proofs.HeaderP Proofs.HeaderAnyP Proofs.Text22P Proofs.CountP Proofs.Trace.

(** A block that goes beyond the declared number [N], written as [n]. *)
Theorem C35_over : forall c b spec w n N d bs bl r,
  meets c b (str "$Elements") spec
    (opened (w ++ n ++ [d] ++ List.concat (map block22_bytes (bs ++ [bl])) ++ r)) ->
  version (mesh_format spec) = str "2.2" -> file_type (mesh_format spec) <> 0 ->
  blank w -> size_word N n -> gap d -> r <> [] ->
  Forall block22_ok (bs ++ [bl]) -> Forall (fun b => Forall rec_ok (bl_recs b)) (bs ++ [bl]) ->
  Forall (fun b => fits c sz_int (bl_ntags b)) (bs ++ [bl]) -> fits c sz_int 125 ->
  fits c sz_ElementBlock (zlen (e_blocks (elements spec)) + N + 1) ->
  zlen (flat_map bl_recs bs) < N < zlen (flat_map bl_recs (bs ++ [bl])) ->
  load_msh c b = Throw (InvalidFormat (str "Inconsistent element count detected!")).
Proof. exact section_over. Qed.
Print Assumptions C35_over.

(** Any bytes after the number: a normal return means [N] more elements. *)
Theorem C35_exact : forall c b spec w n N d r spec' s', sections_22 c b ->
  meets c b (str "$Elements") spec (opened (w ++ n ++ d :: r)) ->
  file_type (mesh_format spec) <> 0 -> blank w -> size_word N n -> is_ws d = true ->
  dispatch c (str "$Elements") spec (opened (w ++ n ++ d :: r)) = Ok (spec', s') ->
  e_num_elements (elements spec') = N /\
  zlen (mesh_elements (elements spec')) = zlen (mesh_elements (elements spec)) + N.
Proof. exact section_exact. Qed.
Print Assumptions C35_exact.

Definition ex_b15 := {| bl_type := 15; bl_ntags := 2; bl_recs := [ex_r1] |}.
Definition ex_b1 := {| bl_type := 1; bl_ntags := 2; bl_recs := [ex_r7] |}.
Definition ex_b2 := {| bl_type := 2; bl_ntags := 2; bl_recs := [ex_r8; ex_r9] |}.

Definition ex_nodes22 : bytes := str "$Nodes" ++ [x0a] ++ (str "4" ++ [x0a] ++
  List.concat (map node_bytes [ex_n1; ex_n2; ex_n5; ex_n3]) ++ []) ++ str "$EndNodes" ++ [x0a].

Definition ex_count (n : Z) (bs : list block22) : bytes :=
  (header_22 false ++ ex_nodes22) ++ str "$Elements" ++
  ([x0a] ++ show_Z n ++ [x0a] ++ List.concat (map block22_bytes bs) ++ str "$EndElements" ++ [x0a]).

(** Whole blocks after the declared number are skipped without complaint. *)
Theorem C35_refuted : exists c n bs b s, Forall block22_ok bs /\ n < zlen (flat_map bl_recs bs) /\
  b = header_22 false ++ ex_nodes22 ++ str "$Elements" ++ [x0a] ++ show_Z n ++ [x0a] ++
      List.concat (map block22_bytes bs) ++ str "$EndElements" ++ [x0a] /\
  load_msh c b = Ok s /\ zlen (mesh_elements (elements s)) = n.
Proof.
  exists c_debug, 1, [ex_b15; ex_b1]. eexists. eexists.
  split; [repeat constructor; try discriminate; vm_compute; discriminate|].
  split; [reflexivity|]. split; [reflexivity|]. split; [vm_compute; reflexivity|vm_compute; reflexivity].
Qed.
Print Assumptions C35_refuted.

Definition ex_spec22 : MshSpec :=
  part_after false (set_format (format_22 false) spec_default) (NodesPart [ex_n1; ex_n2; ex_n5; ex_n3]).

Lemma ex_count_meets : forall n bs, meets c_debug (ex_count n bs) (str "$Elements") ex_spec22
  (opened ([x0a] ++ show_Z n ++ [x0a] ++ List.concat (map block22_bytes bs) ++ str "$EndElements" ++ [x0a])).
Proof.
  intros n bs. eapply meets_after.
  - apply LOADS_complete. eapply LOADS_app; [apply header_LOADS|]. apply part_LOADS.
    + eexists. split; [|reflexivity]. exists []. split; [constructor|reflexivity].
    + repeat constructor; vm_compute; try discriminate; intuition discriminate.
    + split; reflexivity.
    + split; [|exact I]. split; split; vm_compute; discriminate.
  - intros u Hu. apply rd_token_text; [exact Hu|ex_words|reflexivity].
Qed.

(** Two elements are declared, one and then two are there. *)
Example C35_ex : load_msh c_debug (ex_count 2 [ex_b15; ex_b2]) = Throw (InvalidFormat (str "Inconsistent element count detected!")).
Proof.
  apply (C35_over c_debug _ ex_spec22 [x0a] (str "2") 2 x0a [ex_b15] ex_b2 (str "$EndElements" ++ [x0a])).
  - exact (ex_count_meets 2 [ex_b15; ex_b2]).
  - reflexivity.
  - discriminate.
  - repeat constructor.
  - split; [apply (integer_show 2)|vm_compute; split; discriminate || reflexivity].
  - right. right. left. reflexivity.
  - discriminate.
  - repeat constructor; try discriminate; vm_compute; discriminate.
  - repeat constructor; try (vm_compute; intuition discriminate).
  - repeat constructor; vm_compute; discriminate.
  - split; vm_compute; discriminate.
  - split; vm_compute; discriminate.
  - split; reflexivity.
Qed.

Example C35_exact_ex : exists spec' s', sections_22 c_debug (ex_count 3 [ex_b15; ex_b2]) /\
  dispatch c_debug (str "$Elements") ex_spec22 (opened ([x0a] ++ show_Z 3 ++ [x0a] ++
    List.concat (map block22_bytes [ex_b15; ex_b2]) ++ str "$EndElements" ++ [x0a])) = Ok (spec', s').
Proof.
  eexists. eexists. split; [|vm_compute; reflexivity].
  assert (G : exists r, trace is_22 c_debug 100 spec_default (opened (ex_count 3 [ex_b15; ex_b2])) = Some r /\
              version (mesh_format (fst r)) = str "2.2") by (eexists; split; [vm_compute; reflexivity|reflexivity]).
  destruct G as (r & E & V). exact (proj1 (proj2 (trace_22 _ _ _ _ E V))).
Qed.
