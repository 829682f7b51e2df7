(** C30, C43: validity and conversion. *)

From Verif Require Import Model.Save Model.Validate Spec.Consistent22 Spec.Rounding Spec.Valid
  Tests.Examples Tests.ExamplesRt22 Tests.ExamplesConv Proofs.ShowP Proofs.RoundP Proofs.ValidRt Proofs.ConvertP.

(** C30 is false when elements are written without nodes: the declared range
    of node tags is not written either. *)
Theorem C30_refuted : exists c s b s', consistent41 c false s /\ validate_spec s = Ok tt /\
  save_msh c s = (b, Ok tt) /\ load_msh c b = Ok s' /\ validate_spec s' = Throw (CorruptData (str "Node tag in element > max node tag.")).
Proof.
  exists c_release, no_nodes. eexists. eexists. split; [exact no_nodes_41|].
  repeat (split; [vm_compute; reflexivity|]). vm_compute. reflexivity.
Qed.
Print Assumptions C30_refuted.

(** It is false of 2.2 binary files for element tags of 2^31 and more: the
    highest tag of the loaded spec is below the lowest. *)
Theorem C30_refuted22 : exists c s b s', consistent22 c false s /\ validate_spec s = Ok tt /\
  save_msh c s = (b, Ok tt) /\ load_msh c b = Ok s' /\ validate_spec s' = Throw (CorruptData (str "Min element tag > max element tag.")).
Proof.
  exists c_release, big_element. eexists. eexists. split; [exact big_element_22|].
  repeat (split; [vm_compute; reflexivity|]). vm_compute. reflexivity.
Qed.
Print Assumptions C30_refuted22.

(** It holds in all other cases. *)
Theorem C30_kept41 : forall c a s, consistent41 c a s -> typed s -> validate_spec s = Ok tt ->
  (n_num_nodes (nodes s) = 0 -> e_num_elements (elements s) = 0) ->
  exists b s', save_msh c s = (b, Ok tt) /\ load_msh c b = Ok s' /\ validate_spec s' = Ok tt.
Proof. exact valid_kept41. Qed.
Print Assumptions C30_kept41.

(** Files of version 2.2 are valid when loaded even if the spec was not. *)
Theorem C30_kept22 : forall c a s, consistent22 c a s ->
  Forall (fun e => 0 <= el_tag e < 2 ^ 31) (mesh_elements (elements s)) ->
  exists b s', save_msh c s = (b, Ok tt) /\ load_msh c b = Ok s' /\ validate_spec s' = Ok tt.
Proof. exact valid_kept22. Qed.
Print Assumptions C30_kept22.

Example C30_hyp41 : consistent41 c_debug true (ex_spec (str "4.1") true) /\ typed (ex_spec (str "4.1") true) /\
  validate_spec (ex_spec (str "4.1") true) = Ok tt /\ n_num_nodes (nodes (ex_spec (str "4.1") true)) <> 0.
Proof.
  split; [exact (ex_spec_41 false true)|]. split; [repeat constructor; cbn; lia|].
  split; [vm_compute; reflexivity|discriminate].
Qed.
Example C30_hyp22 : consistent22 c_debug true (ex_spec (str "2.2") true) /\
  Forall (fun e => 0 <= el_tag e < 2 ^ 31) (mesh_elements (elements (ex_spec (str "2.2") true))).
Proof.
  split; [exact (ex_spec_22 false true)|]. eapply Forall_impl; [|exact (proj2 (ex_small (str "2.2") true))]. intros e [H _]. exact H.
Qed.

(** C43, for any choice of encodings: the coordinates written as text are
    rounded to six digits, and elements get the dimension of their type. *)
Theorem C43_converted : exists r : dbl -> dbl,
  (forall x, size_ok x -> finite x -> six_digits_of x (r x)) /\
  forall c a1 a2 s, consistent22 c a1 (as_type a1 s) -> consistent22 c a2 (as_type a2 s) ->
    data_size (mesh_format s) = 8 -> small_tags s -> room41 c s ->
    exists b1 s1 b2 s2, save_msh c (as_type a1 s) = (b1, Ok tt) /\ load_msh c b1 = Ok s1 /\
      save_msh c (to41 a2 s1) = (b2, Ok tt) /\ load_msh c b2 = Ok s2 /\
      mesh_nodes (nodes s2) = map (node_round a2 r) (map (node_round a1 r) (mesh_nodes (nodes s))) /\
      mesh_elements (elements s2) = map with_type_dim (mesh_elements (elements s)).
Proof. exists ascii_round. split; [exact ascii_round_six|exact convert]. Qed.
Print Assumptions C43_converted.

Example C43_hyp : let s := ex_spec (str "2.2") true in
  consistent22 c_debug true (as_type true s) /\ consistent22 c_debug false (as_type false s) /\
  data_size (mesh_format s) = 8 /\ small_tags s /\ room41 c_debug s.
Proof.
  split; [exact (ex_spec_22 false true)|]. split; [exact (ex_spec_22 false false)|].
  split; [reflexivity|]. split; [apply ex_small|apply ex_room].
Qed.
