(** C75: files written one after the other into one stream. *)

From Verif Require Import Model.Save Spec.Consistent Spec.Text41 Spec.Any22 Spec.Joined Tests.Examples
  Tests.ExamplesText41 Tests.ExamplesAny22 Proofs.RtBase Proofs.ShowP Proofs.RoundP Proofs.TextP Proofs.Rt41 Proofs.JoinedP Proofs.Joined22P Props.AnyLayout.

(** Any number of 4.1 meshes, text and binary mixed, saved into one stream: loading reads them on top of each other. *)
Theorem C75_saved : forall c ss bs ts, ss <> [] -> Forall (fun s => exists a, consistent41 c a s) ss ->
  Forall2 (fun s b => save_msh c s = (b, Ok tt)) ss bs -> Forall2 (fun b t => load_msh c b = Ok t) bs ts ->
  load_msh c (List.concat bs) = Ok (fold_left over ts spec_default).
Proof. exact saved_joined. Qed.
Print Assumptions C75_saved.

(** Two of them. *)
Theorem C75_two : forall c s1 s2 b1 b2 t1 t2,
  (exists a, consistent41 c a s1) -> (exists a, consistent41 c a s2) ->
  save_msh c s1 = (b1, Ok tt) -> save_msh c s2 = (b2, Ok tt) ->
  load_msh c b1 = Ok t1 -> load_msh c b2 = Ok t2 -> load_msh c (b1 ++ b2) = Ok (over t1 t2).
Proof. exact two_joined. Qed.
Print Assumptions C75_two.

(** A file with nothing but data, written after a mesh, adds its data to that mesh. *)
Theorem C75_views : forall c s1 s2 b1 b2 t1 t2,
  (exists a, consistent41 c a s1) -> (exists a, consistent41 c a s2) ->
  save_msh c s1 = (b1, Ok tt) -> save_msh c s2 = (b2, Ok tt) -> load_msh c b1 = Ok t1 -> load_msh c b2 = Ok t2 ->
  n_num_nodes (nodes s2) = 0 -> e_num_elements (elements s2) = 0 -> entities s2 = ents_default ->
  physical_groups s2 = [] -> curves s2 = [] -> patches s2 = [] ->
  exists t, load_msh c (b1 ++ b2) = Ok t /\
    nodes t = nodes t1 /\ elements t = elements t1 /\ entities t = entities t1 /\ physical_groups t = physical_groups t1 /\
    curves t = curves t1 /\ patches t = patches t1 /\ node_data t = node_data t1 ++ node_data t2 /\
    element_data t = element_data t1 ++ element_data t2 /\
    element_node_data t = element_node_data t1 ++ element_node_data t2.
Proof. exact views_joined. Qed.
Print Assumptions C75_views.

(** Hand-written 4.1 files in any layout, text and binary mixed: the sections of all of them count as those of one file. *)
Theorem C75_files : forall c ws w,
  Forall (fun w => file41 (w_ascii w) (w_secs w) (w_bytes w) /\ Forall (sec_ok c (w_ascii w)) (w_secs w)) (ws ++ [w]) ->
  load_msh c (flat_map w_bytes (ws ++ [w])) = Ok (content41 (w_ascii w) (flat_map w_secs (ws ++ [w]))).
Proof. exact files_joined. Qed.
Print Assumptions C75_files.

(** 2.2 files of one encoding: here nodes and elements add up instead. *)
Theorem C75_files22 : forall c ascii (ws : list (list sec22 * bytes)) lo hi, ws <> [] ->
  Forall (fun w => any22 ascii (fst w) (snd w) /\ Forall (sec22_ok c ascii) (fst w)) ws ->
  loadable c (parts_of (flat_map fst ws)) lo hi ->
  exists s, load_msh c (flat_map snd ws) = Ok s /\ content22 ascii (flat_map fst ws) lo hi s.
Proof. exact files22_joined. Qed.
Print Assumptions C75_files22.

(** ** Concrete cases *)

Definition ex_text : MshSpec := ex_spec (str "4.1") true.
(** The same mesh in binary, without its nodes and groups. *)
Definition ex_bare : MshSpec := set_nodes n_default (set_physical_groups [] (ex_spec (str "4.1") false)).

Lemma ex_bare_41 : forall nd, consistent41 {| ndebug := nd; nanospline := true; mem := 1000000 |} false ex_bare.
Proof.
  intro nd. destruct (ex_spec_41 nd false) as [Hv Ht Hd [Kg Knn Kn Kne Ke Knd Ked Kend] Hen Hns].
  split; [exact Hv|exact Ht|exact Hd| |exact Hen|].
  - split; cbn [ex_bare set_nodes set_physical_groups physical_groups nodes elements node_data element_data element_node_data];
      try assumption.
    + ex_ok.
    + ex_ok.
    + intros X. exfalso. apply X. reflexivity.
  - intro N. destruct (Hns N) as [H1 H2 H3]. split; assumption.
Qed.

Example C75_two_hyp : exists b1 b2 t1 t2,
  save_msh c_release ex_text = (b1, Ok tt) /\ save_msh c_release ex_bare = (b2, Ok tt) /\
  load_msh c_release b1 = Ok t1 /\ load_msh c_release b2 = Ok t2 /\
  nodes t1 <> n_default /\ nodes t2 = n_default /\ node_data t1 <> [] /\ node_data t2 <> [] /\
  exists t, load_msh c_release (b1 ++ b2) = Ok t /\ nodes t = nodes t1 /\ node_data t <> node_data t1.
Proof.
  pose proof (ex_spec_41 true true) as C1. pose proof (ex_bare_41 true) as C2.
  destruct (roundtrip41 _ _ _ C1) as (b1 & S1 & L1). destruct (roundtrip41 _ _ _ C2) as (b2 & S2 & L2).
  match type of L1 with _ = Ok ?x => set (t1 := x) in * end. match type of L2 with _ = Ok ?x => set (t2 := x) in * end.
  assert (N1 : nodes t1 <> n_default) by discriminate. assert (N2 : nodes t2 = n_default) by reflexivity.
  assert (D1 : node_data t1 <> []) by discriminate. assert (D2 : node_data t2 <> []) by discriminate.
  clearbody t1 t2. exists b1, b2, t1, t2. repeat (split; [assumption|]).
  exists (over t1 t2). split; [eapply C75_two; [exists true; exact C1|exists false; exact C2|assumption..]|].
  unfold over. cbn [nodes node_data]. rewrite N2. split; [reflexivity|].
  intro E. rewrite <- (app_nil_r (node_data t1)) in E at 2. apply app_inv_head in E. contradiction.
Qed.

(** Data alone. *)
Definition ex_view : MshSpec :=
  set_elements e_default (set_entities ents_default (set_curves [] (set_patches [] ex_bare))).

Example C75_views_hyp : consistent41 c_release true ex_text /\ consistent41 c_release false ex_view /\ node_data ex_view <> [] /\
  n_num_nodes (nodes ex_view) = 0 /\ e_num_elements (elements ex_view) = 0 /\ entities ex_view = ents_default /\
  physical_groups ex_view = [] /\ curves ex_view = [] /\ patches ex_view = [].
Proof.
  split; [apply (ex_spec_41 true true)|]. split; [|repeat (split; [discriminate || reflexivity|]); reflexivity].
  destruct (ex_bare_41 true) as [Hv Ht Hd [Kg Knn Kn Kne Ke Knd Ked Kend] Hen Hns].
  split; [exact Hv|exact Ht|exact Hd| | |].
  - split; cbn [ex_view set_elements set_entities set_curves set_patches physical_groups nodes elements node_data element_data element_node_data];
      try assumption; intros X; exfalso; apply X; reflexivity.
  - split; ex_ok.
  - intro N. destruct (Hns N) as [H1 H2 H3]. split; [assumption|split; [constructor|ex_ok]|split; [constructor|ex_ok]].
Qed.

Example C75_files_hyp : forall nd,
  let w a := {| w_ascii := a; w_secs := ex_secs; w_bytes := ex_file a |} in
  Forall (fun w => file41 (w_ascii w) (w_secs w) (w_bytes w) /\
    Forall (sec_ok {| ndebug := nd; nanospline := true; mem := 1000000 |} (w_ascii w)) (w_secs w)) ([w true] ++ [w false]).
Proof.
  intros nd w. constructor; [|constructor; [|constructor]]; (split; [apply ex_file_41|apply ex_secs_ok]).
Qed.

Example C75_files22_hyp : forall nd ascii, let c := {| ndebug := nd; nanospline := true; mem := 1000000 |} in
  let ws := [(ex_secs22, ex_any22 ascii); (ex_secs22, ex_any22 ascii)] in
  Forall (fun w => any22 ascii (fst w) (snd w) /\ Forall (sec22_ok c ascii) (fst w)) ws /\
  loadable c (parts_of (flat_map fst ws)) 1 5.
Proof.
  intros nd ascii c ws. split.
  - constructor; [|constructor; [|constructor]]; (split; [apply ex_any_22|apply ex_secs22_ok]).
  - assert (Hm : mem c = 1000000) by reflexivity. split.
    + discriminate.
    + split; [right; left; reflexivity|]. split; [vm_compute; discriminate|].
      repeat constructor; vm_compute; discriminate.
    + split; [right; right; left; reflexivity|]. split; [vm_compute; discriminate|].
      repeat constructor; vm_compute; discriminate.
    + intros e t He Ht. cbn in He. repeat destruct He as [<-|He]; try destruct He;
        cbn in Ht; repeat destruct Ht as [<-|Ht]; try destruct Ht; vm_compute; intuition discriminate.
    + split; [vm_compute; discriminate|rewrite Hm; vm_compute; discriminate].
    + split; [vm_compute; discriminate|rewrite Hm; vm_compute; discriminate].
    + repeat constructor; try (vm_compute; discriminate); rewrite Hm; vm_compute; discriminate.
    + split; [vm_compute; discriminate|rewrite Hm; vm_compute; discriminate].
    + repeat constructor; try (vm_compute; discriminate); rewrite Hm; vm_compute; discriminate.
Qed.
