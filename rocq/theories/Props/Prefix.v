(** C57: what is loaded from the beginning of a file. *)

From Verif Require Import Model.Save Spec.Rounding Spec.Consistent Spec.Files22 Spec.Prefix Spec.Text41 Tests.Examples Tests.ExamplesText41
  Proofs.Compose Proofs.Text41P Proofs.PrefixP Proofs.CutsP Proofs.RoundP Proofs.Final Proofs.ExtP Props.AnyLayout.

(** Debug builds, any version but 2.2: when both a file and a beginning of it
    load, the beginning gives the mesh that loading the whole file had read at
    one of its loop tests, before touching the part cut off; that is the last
    such loop test. *)
Theorem C57_prefix : forall c p q s s', ndebug c = false -> never_22 c (p ++ q) ->
  load_msh c (p ++ q) = Ok s -> load_msh c p = Ok s' ->
  exists pt u, passes c p q pt u /\ same_mesh (read_at pt) s' /\
    forall pt' u', passes c p q pt' u' -> u' <> [] -> (List.length u <= List.length u')%nat.
Proof. exact prefix_mesh. Qed.
Print Assumptions C57_prefix.

(** For a file of any layout: the first few of its sections. *)
Theorem C57_layout : forall c ascii ps p q s', ndebug c = false ->
  file41 ascii ps (p ++ q) -> Forall (sec_ok c ascii) ps -> load_msh c p = Ok s' ->
  exists k, same_mesh (content41 ascii (firstn k ps)) s'.
Proof. exact prefix_file41. Qed.
Print Assumptions C57_layout.

(** For a saved file: the first few of its sections, each one complete. *)
Theorem C57_saved : exists r : dbl -> dbl,
  (forall x, size_ok x -> finite x -> six_digits_of x (r x)) /\
  forall c a s p q s', consistent41 c a s -> ndebug c = false ->
    save_msh c s = (p ++ q, Ok tt) -> load_msh c p = Ok s' ->
    first_part s' (via41 a r (nanospline c) s).
Proof.
  eexists. split; [exact ascii_round_six|]. intros c a s p q s' K. exact (prefix_saved c a s K p q s').
Qed.
Print Assumptions C57_saved.

(** Binary files: nothing but the numbers saved. *)
Theorem C57_saved_binary : forall c s p q s', consistent41 c false s -> ndebug c = false ->
  save_msh c s = (p ++ q, Ok tt) -> load_msh c p = Ok s' ->
  (nodes s' = n_default \/ nodes s' = nodes s) /\ (elements s' = e_default \/ elements s' = elements s).
Proof.
  intros c s p q s' K D S L. destruct C57_saved as (r & _ & H). destruct (H c false s p q s' K D S L) as [_ _ N E _ _ _].
  cbn [via41 nodes elements entities] in N, E. unfold nodes_via, elements_via in N, E. split.
  - destruct (n_num_nodes (nodes s) =? 0); [tauto|]. destruct N as [N|[N _]]; [left; exact N|right]. rewrite N.
    destruct (nodes s) as [n1 n2 n3 n4 bl]. cbn. f_equal. rewrite <- (map_id bl) at 2. apply map_ext.
    intros []. unfold node_block_via. cbn. f_equal. apply map_id.
  - destruct (e_num_elements (elements s) =? 0); [tauto|]. destruct E as [E|[E _]]; [left|right]; exact E.
Qed.
Print Assumptions C57_saved_binary.

(** ** Concrete cases *)

(** The file of C47, cut in the middle of the last section. *)
Definition ex_cut_at : nat := List.length (ex_file false) - 4.

Example C57_layout_hyp : exists s', let p := firstn ex_cut_at (ex_file false) in let q := skipn ex_cut_at (ex_file false) in
  file41 false ex_secs (p ++ q) /\ Forall (sec_ok c_debug false) ex_secs /\ load_msh c_debug p = Ok s' /\
  q <> [] /\ zlen (physical_groups s') = 1 /\ map nb_tags (n_blocks (nodes s')) = [[4]].
Proof.
  eexists. cbv zeta. rewrite firstn_skipn. split; [apply ex_file_41|]. split; [apply (ex_secs_ok false)|].
  split; [vm_compute; reflexivity|]. split; [vm_compute; discriminate|]. split; vm_compute; reflexivity.
Qed.

Example C57_prefix_hyp : let p := firstn ex_cut_at (ex_file false) in let q := skipn ex_cut_at (ex_file false) in
  never_22 c_debug (p ++ q) /\ exists s, load_msh c_debug (p ++ q) = Ok s.
Proof.
  cbv zeta. rewrite firstn_skipn. destruct (C47_hyp false false) as [F K]. split.
  - intros pt R. pose proof (loaded_in _ _ _ _ _ (file41_LOADS _ _ _ _ F K) pt R) as [-> |[k ->]]; discriminate.
  - eexists. exact (C47_loaded _ _ _ _ F K).
Qed.

(** A saved file cut after $EndNodes. *)
Example C57_saved_hyp : let s := ex_spec (str "4.1") false in exists b k s',
  consistent41 c_debug false s /\ save_msh c_debug s = (firstn k b ++ skipn k b, Ok tt) /\
  load_msh c_debug (firstn k b) = Ok s' /\ nodes s' = nodes s /\ elements s' <> elements s.
Proof.
  cbv zeta. eexists. exists 500%nat. eexists. split; [apply (ex_spec_41 false false)|]. rewrite firstn_skipn.
  split; [vm_compute; reflexivity|].
  split; [vm_compute; reflexivity|]. split; [vm_compute; reflexivity|vm_compute; discriminate].
Qed.

(** ** What is false *)

Definition says (l : list string) : bytes := flat_map (fun w => str w ++ [x0a]) l.

(** Version 2.2, debug build too: cut between two lines of $Elements, the file
    loads with the last element repeated. *)
Definition head_22 : bytes := says ["$MeshFormat"; "2.2 0 8"; "$EndMeshFormat"; "$Nodes"; "2"; "1 0 0 0"; "2 0 0 0"; "$EndNodes";
  "$Elements"; "2"; "1 15 2 0 1 1"]%string.
Definition tail_22 : bytes := says ["2 15 2 0 1 2"; "$EndElements"]%string.

Theorem C57_refuted_22 : exists s s', load_msh c_debug (head_22 ++ tail_22) = Ok s /\ load_msh c_debug head_22 = Ok s' /\
  map eb_data (e_blocks (elements s)) = [[1; 1; 2; 2]] /\ map eb_data (e_blocks (elements s')) = [[1; 1; 1; 1]].
Proof. do 2 eexists. split; [vm_compute; reflexivity|]. split; [vm_compute; reflexivity|]. split; reflexivity. Qed.
Print Assumptions C57_refuted_22.

(** Version 4.1, release build: cut inside a number, the file loads with
    another number. *)
Definition head_41 : bytes := says ["$MeshFormat"; "4.1 0 8"; "$EndMeshFormat"; "$Nodes"; "1 1 7 7"; "0 1 0 1"; "7"; "0 0 0"; "$EndNodes";
  "$Elements"; "1 1 12 12"; "0 1 15 1"]%string ++ str "1".
Definition tail_41 : bytes := says ["2 7"; "$EndElements"]%string.

Theorem C57_refuted_release : exists s s', load_msh c_release (head_41 ++ tail_41) = Ok s /\ load_msh c_release head_41 = Ok s' /\
  load_msh c_debug head_41 = Abort /\
  map eb_data (e_blocks (elements s)) = [[12; 7]] /\ map eb_data (e_blocks (elements s')) = [[1; 0]].
Proof. do 2 eexists. do 3 (split; [vm_compute; reflexivity|]). split; reflexivity. Qed.
Print Assumptions C57_refuted_release.
