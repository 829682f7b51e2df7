(** C69: what validate_spec can still find wrong in a mesh that was loaded. *)

From Verif Require Import Model.LoadMsh Model.Validate Spec.Checked Spec.Text22 Tests.Examples Tests.Examples22 Proofs.BytesP
  Proofs.ValidateP Proofs.LoadedP Proofs.File22P Proofs.RegroupP Proofs.Trace Proofs.CheckedP Proofs.Checked22P.

(** 4.1: counts and sizes are right whatever the file; what is checked are the tags. *)
Theorem C69_41 : forall c b s, load_msh c b = Ok s -> version (mesh_format s) <> str "2.2" ->
  Forall honest (e_blocks (elements s)) -> Forall flagged (n_blocks (nodes s)) ->
  (validate_spec s = Ok tt <-> in_range s) /\
  (~ in_range s -> exists m, In m about_tags /\ validate_spec s = Throw (CorruptData (str m))).
Proof.
  intros c b s L V H F. pose proof (loaded_sized s (loaded_not22 c b s L V) H F) as Z.
  pose proof (validate_sized s Z) as E. split; [exact E|]. intro N.
  destruct (sized_check s Z) as [O|O]; [tauto|exact O].
Qed.
Print Assumptions C69_41.

(** 2.2: the same without conditions on the blocks; the vectors have the sizes vectors can have. *)
Theorem C69_22 : forall c b s, load_msh c b = Ok s -> sections_22 c b -> version (mesh_format s) = str "2.2" ->
  Forall (fun b => room (zlen (nb_data b))) (n_blocks (nodes s)) ->
  (validate_spec s = Ok tt <-> in_range s) /\
  (~ in_range s -> exists m, In m about_tags /\ validate_spec s = Throw (CorruptData (str m))).
Proof.
  intros c b s L S V R. destruct (consistent22 c b s L S V) as (C & _ & P).
  pose proof (sized22 s C P R) as Z. pose proof (validate_sized s Z) as E. split; [exact E|]. intro N.
  destruct (sized_check s Z) as [O|O]; [tauto|exact O].
Qed.
Print Assumptions C69_22.

(** When the tags of a 2.2 file pass: sections that are there are not empty,
    and element numbers in binary files are not negative. *)
Theorem C69_22_exact : forall c b s ascii, load_msh c b = Ok s -> sections_22 c b -> version (mesh_format s) = str "2.2" ->
  Forall (fun b => room (zlen (nb_data b))) (n_blocks (nodes s)) -> elements_as ascii c b ->
  (validate_spec s = Ok tt <->
   filled c b "$Nodes" (mesh_nodes (nodes s)) /\ filled c b "$Elements" (mesh_elements (elements s)) /\
   (ascii = false -> Forall (fun e => el_tag e <= INT_MAX) (mesh_elements (elements s)))).
Proof.
  intros c b s ascii L S V R A. rewrite (proj1 (C69_22 c b s L S V R)).
  destruct (load_ends c b s L) as (raw & EW & PP). apply (ranges22 c b raw s ascii); [|exact L|exact A].
  split; [exact EW|]. split; [exact S|]. destruct (post_data c raw s PP) as (_ & _ & _ & <-). exact V.
Qed.
Print Assumptions C69_22_exact.

(** ** Examples *)

Definition line (s : string) : bytes := str s ++ [x0a].

Definition header (v : string) (a : bool) : bytes :=
  line "$MeshFormat" ++ str v ++ (if a then str " 0 8" ++ [x0a] else str " 1 8" ++ [x0a; x01; x00; x00; x00; x0a]) ++ line "$EndMeshFormat".

(** A triangle in a parametric block; with [hi] as the largest node tag. *)
Definition tri_41 (hi : string) : bytes := header "4.1" true ++
  line "$Nodes" ++ str "1 3 1 " ++ line hi ++ line "2 1 1 3" ++ line "1" ++ line "2" ++ line "3" ++
  line "0 0 0 0 0" ++ line "0 0 0 0 0" ++ line "0 0 0 0 0" ++ line "$EndNodes" ++
  line "$Elements" ++ line "1 1 1 1" ++ line "2 1 2 1" ++ line "1 1 2 3" ++ line "$EndElements".

Lemma tri_loads : forall (short : bool), exists s, load_msh c_release (tri_41 (if short then "2" else "3")) = Ok s /\
  version (mesh_format s) <> str "2.2" /\ Forall honest (e_blocks (elements s)) /\ Forall flagged (n_blocks (nodes s)) /\
  n_max (nodes s) = (if short then 2 else 3) /\
  validate_spec s = if short then Throw (CorruptData (str "Node tag > max node tag.")) else Ok tt.
Proof.
  intros [|]; (eexists; split; [vm_compute; reflexivity|]); (split; [discriminate|]);
    (split; [constructor; [split; [reflexivity|intros n E; vm_compute in E; injection E as <-; reflexivity]|constructor]|]);
    (split; [constructor; [discriminate|constructor]|]); split; vm_compute; reflexivity.
Qed.

(** 2.2: [n] nodes 1..n as told, [els] the text of the elements, or none. *)
Definition file_22_of (ns els : list string) : bytes := header "2.2" true ++
  (line "$Nodes" ++ List.concat (map line ns) ++ line "$EndNodes") ++
  match els with [] => [] | _ => line "$Elements" ++ List.concat (map line els) ++ line "$EndElements" end.

Definition is_22_as (ascii : bool) (name : bytes) (spec : MshSpec) : bool :=
  is_22 name spec && (negb (bytes_eqb name (str "$Elements")) || Bool.eqb (file_type (mesh_format spec) =? 0) ascii).

Lemma trace_as : forall ascii c b f r, trace (is_22_as ascii) c f spec_default (opened b) = Some r -> sections_22 c b /\ elements_as ascii c b.
Proof.
  intros ascii c b f r H. split.
  - intros name spec s M N. pose proof (trace_meets _ c b f r H name spec s M) as K. apply andb_true_iff in K. destruct K as [K _].
    unfold is_22 in K. apply orb_true_iff in K. destruct K as [K|K]; [|apply bytes_eqb_eq; exact K].
    apply negb_true_iff, orb_false_iff in K. destruct K as [K1 K2]. apply bytes_eqb_neq in K1, K2. destruct N; contradiction.
  - intros spec s M. pose proof (trace_meets _ c b f r H _ spec s M) as K. apply andb_true_iff in K. destruct K as [_ K].
    change (bytes_eqb (str "$Elements") (str "$Elements")) with true in K. apply Bool.eqb_prop. exact K.
Qed.

(** What the theorem needs, and what validate_spec says. *)
Definition outcome_22 (ascii : bool) (b : bytes) (r : outcome unit) : Prop :=
  exists s, load_msh c_release b = Ok s /\ sections_22 c_release b /\ version (mesh_format s) = str "2.2" /\
    Forall (fun b => room (zlen (nb_data b))) (n_blocks (nodes s)) /\ elements_as ascii c_release b /\ validate_spec s = r.

Ltac ex22 := eexists; (split; [vm_compute; reflexivity|]);
  match goal with |- sections_22 ?c ?b /\ _ /\ _ /\ elements_as ?a _ _ /\ _ =>
    let T := fresh in assert (T : sections_22 c b /\ elements_as a c b) by (eapply (trace_as a c b 100); vm_compute; reflexivity);
    destruct T as [T1 T2]; split; [exact T1|]; split; [reflexivity|]; split; [repeat constructor|]; split; [exact T2|vm_compute; reflexivity] end.

Example C69_nodes_only : outcome_22 true (file_22_of ["1"; "7 0 0 0"]%string []%string) (Ok tt).
Proof. ex22. Qed.

(** A negative element number is a large number in a text file ... *)
Example C69_negative_text : outcome_22 true (file_22_of ["1"; "7 0 0 0"]%string ["1"; "-1 15 0 7"]%string) (Ok tt).
Proof. ex22. Qed.

(** An empty section. *)
Example C69_no_nodes : outcome_22 true (file_22_of ["0"]%string []%string) (Throw (CorruptData (str "Min node tag > max node tag."))).
Proof. ex22. Qed.
Example C69_no_elements : outcome_22 true (file_22_of ["1"; "7 0 0 0"]%string ["0"]%string) (Throw (CorruptData (str "Min element tag > max element tag."))).
Proof. ex22. Qed.

(** ... and out of range in a binary one. *)
Definition bin_22 (id : Z) : bytes := header "2.2" false ++
  line "$Nodes" ++ line "1" ++ le 4 7 ++ le 8 0 ++ le 8 0 ++ le 8 0 ++ [x0a] ++ line "$EndNodes" ++
  line "$Elements" ++ line "1" ++ List.concat (map (le 4) [15; 1; 0; id; 7]) ++ [x0a] ++ line "$EndElements".

Example C69_binary : outcome_22 false (bin_22 5) (Ok tt).
Proof. ex22. Qed.
Example C69_negative_binary : outcome_22 false (bin_22 4294967295) (Throw (CorruptData (str "Min element tag > max element tag."))).
Proof. ex22. Qed.

(** ** What the conditions of C69_41 are there for *)

(** An element block without elements loads, and validate_spec divides by zero. *)
Definition none_41 : bytes := header "4.1" true ++ line "$Elements" ++ line "1 0 0 0" ++ line "2 1 2 0" ++ line "$EndElements".

Theorem C69_crash_refuted : exists b s, load_msh c_debug b = Ok s /\ version (mesh_format s) = str "4.1" /\
  Forall flagged (n_blocks (nodes s)) /\ validate_spec s = Undef DivByZero.
Proof.
  exists none_41. eexists. split; [vm_compute; reflexivity|]. split; [reflexivity|]. split; [constructor|vm_compute; reflexivity].
Qed.
Print Assumptions C69_crash_refuted.

(** The loader takes the flag for "parametric" only if it is 1, validate_spec if it is positive. *)
Definition flag_41 (flag : string) (coords : string) : bytes := header "4.1" true ++
  line "$Nodes" ++ line "1 1 1 1" ++ str "1 1 " ++ str flag ++ line " 1" ++ line "1" ++ line coords ++ line "$EndNodes".

Theorem C69_flag_refuted : exists b s, load_msh c_debug b = Ok s /\ version (mesh_format s) = str "4.1" /\
  Forall honest (e_blocks (elements s)) /\ in_range s /\
  validate_spec s = Throw (CorruptData (str "Invalide node data size.")).
Proof.
  exists (flag_41 "2" "0 0 0"). eexists. split; [vm_compute; reflexivity|]. split; [reflexivity|]. split; [constructor|]. split.
  - split; [vm_compute; congruence|vm_compute; congruence| |constructor]. repeat constructor; vm_compute; congruence.
  - vm_compute. reflexivity.
Qed.
Print Assumptions C69_flag_refuted.
