(** C37: files cut off inside $Nodes. *)

From Verif Require Import Model.Save Spec.Cut Tests.Examples Proofs.CutFile.

(** Release builds: with [k] bytes of a block's coordinates left, load_msh
    returns; the earlier blocks are there, missing bytes of the coordinates are
    zero, later blocks and all later sections are empty. *)
Theorem C37_release : forall c s, consistent41 c false s -> n_num_nodes (nodes s) <> 0 -> ndebug c = true ->
  exists pre post b, save_msh c s = (b, Ok tt) /\ nodes_in s pre post b /\
    forall before bk after k, n_blocks (nodes s) = before ++ bk :: after ->
      (k < 8 * List.length (nb_data bk))%nat ->
      load_msh c (pre ++ nodes_line ++ nodes_head (nodes s) ++ List.concat (map block_payload before) ++
                  block_head bk ++ firstn k (words8 (nb_data bk))) =
      Ok (up_to_nodes (before ++ with_data (cut_words k (nb_data bk)) bk :: repeat no_block (List.length after)) s).
Proof.
  intros c s H N R. destruct (split_file c s H N) as (pre & post & b & W & I & L). exists pre, post, b.
  split; [exact W|]. split; [exact I|]. intros before bk after k E Hk. exact (file_at c s pre H N L before bk after k R E Hk).
Qed.
Print Assumptions C37_release.

(** The same, for every cut between the $Nodes line and $EndNodes. *)
Theorem C37_release_any : forall c s, consistent41 c false s -> n_num_nodes (nodes s) <> 0 -> ndebug c = true ->
  Forall (fun b => 0 <= nb_parametric b <= 3) (n_blocks (nodes s)) ->
  exists pre post b, save_msh c s = (b, Ok tt) /\ nodes_in s pre post b /\
    forall k, (k < List.length (nodes_payload (nodes s)))%nat ->
      exists s', load_msh c (pre ++ nodes_line ++ firstn k (nodes_payload (nodes s))) = Ok s'.
Proof.
  intros c s H N R P. destruct (split_file c s H N) as (pre & post & b & W & I & L). exists pre, post, b.
  split; [exact W|]. split; [exact I|]. intros k Hk. exact (file_release c s pre H N L k R P Hk).
Qed.
Print Assumptions C37_release_any.

(** Debug builds: an assertion fails. *)
Theorem C37_debug : forall c s, consistent41 c false s -> n_num_nodes (nodes s) <> 0 -> ndebug c = false ->
  exists pre post b, save_msh c s = (b, Ok tt) /\ nodes_in s pre post b /\
    forall k, (k < List.length (nodes_payload (nodes s)))%nat ->
      load_msh c (pre ++ nodes_line ++ firstn k (nodes_payload (nodes s))) = Abort.
Proof.
  intros c s H N R. destruct (split_file c s H N) as (pre & post & b & W & I & L). exists pre, post, b.
  split; [exact W|]. split; [exact I|]. intros k Hk. exact (file_debug c s pre H N L k R Hk).
Qed.
Print Assumptions C37_debug.

(** Either build: a cut from there to the end of the $EndNodes line is not
    noticed. *)
Theorem C37_end_marker : forall c s, consistent41 c false s -> n_num_nodes (nodes s) <> 0 ->
  exists pre post b, save_msh c s = (b, Ok tt) /\ nodes_in s pre post b /\
    forall k, (k <= List.length end_nodes_line)%nat ->
      load_msh c (pre ++ nodes_line ++ nodes_payload (nodes s) ++ firstn k end_nodes_line) =
      Ok (up_to_nodes (n_blocks (nodes s)) s).
Proof.
  intros c s H N. destruct (split_file c s H N) as (pre & post & b & W & I & L). exists pre, post, b.
  split; [exact W|]. split; [exact I|]. intros k Hk. exact (file_end c s pre H N L k Hk).
Qed.
Print Assumptions C37_end_marker.

Example C37_hyp : forall nd, let c := {| ndebug := nd; nanospline := true; mem := 1000000 |} in
  let s := ex_spec (str "4.1") false in
  consistent41 c false s /\ n_num_nodes (nodes s) <> 0 /\
  Forall (fun b => 0 <= nb_parametric b <= 3) (n_blocks (nodes s)) /\
  exists before bk after, n_blocks (nodes s) = before ++ bk :: after /\ before <> [] /\ nb_data bk <> [].
Proof.
  intro nd. cbv zeta. split; [apply ex_spec_41|]. split; [discriminate|]. split.
  - cbn. ex_forall; cbn; lia.
  - cbn. eexists [_], _, []. split; [reflexivity|]. split; discriminate.
Qed.

(** The claim is false: a cut file loads as a different mesh. *)
Theorem C37_refuted : exists s b k s', consistent41 c_release false s /\ save_msh c_release s = (b, Ok tt) /\
  (k < List.length b)%nat /\ load_msh c_release (firstn k b) = Ok s' /\
  map (fun x => zlen (nb_data x)) (n_blocks (nodes s')) = map (fun x => zlen (nb_data x)) (n_blocks (nodes s)) /\
  map nb_data (n_blocks (nodes s')) <> map nb_data (n_blocks (nodes s)).
Proof.
  exists (ex_spec (str "4.1") false). eexists. exists 495%nat. eexists. split; [apply (ex_spec_41 true false)|].
  split; [vm_compute; reflexivity|].
  split; [vm_compute; lia|].
  split; [vm_compute; reflexivity|]. split; [vm_compute; reflexivity|vm_compute; discriminate].
Qed.
Print Assumptions C37_refuted.
