(** Whole files cut off inside $Nodes. *)

From Verif Require Import Model.Save Spec.Cut Spec.Steps Proofs.BytesP Proofs.RtBase Proofs.ShowP
  Proofs.WriteP Proofs.RtStep Proofs.Fuel Proofs.Reach Proofs.Compose Proofs.Rt41A Proofs.Rt41B Proofs.Rt41 Proofs.CutP.

Ltac Zify.zify_post_hook ::= idtac.

(** The spec when $Nodes is met. *)
Definition before_nodes (s : MshSpec) : MshSpec :=
  set_entities (entities s) (set_physical_groups (physical_groups s) (set_format (mesh_format s) spec_default)).

Lemma entities_via_raw : forall en, entities_via false r6 en = en.
Proof.
  intros [p q r t]. unfold entities_via. cbn [points curves_e surfaces_e volumes_e].
  assert (IF : forall A (f : A -> A) l, (forall x, f x = x) -> map f l = l).
  { intros A f l Hf. rewrite <- (map_id l) at 2. apply map_ext. exact Hf. }
  rewrite !IF; [reflexivity|intros []; reflexivity..].
Qed.

Lemma nodes_payload_bytes : forall n, nodes_payload n = nodes_bytes n.
Proof.
  intro n. unfold nodes_payload, nodes_bytes, nodes_head. rewrite <- !app_assoc. do 5 f_equal.
Qed.

Lemma split_file : forall c s, consistent41 c false s -> n_num_nodes (nodes s) <> 0 ->
  exists pre post b, save_msh c s = (b, Ok tt) /\ nodes_in s pre post b /\
    LOADS c pre spec_default (before_nodes s).
Proof.
  intros c s [Hv Ht Hd [Kg Knn Kn Kne Ke Knd Ked Kend] Hen Hns] NN.
  assert (F : fmt41 false s) by (split; assumption).
  assert (P1 : PIECE c (save_mesh_format s) spec_default (set_format (mesh_format s) spec_default)).
  { apply format_PIECE; [left; exact Hv|right; exact Ht|left; exact Hd]. }
  assert (P2 := groups_PIECE c s (set_format (mesh_format s) spec_default) Kg eq_refl).
  assert (P3 := entities_PIECE c false s (set_physical_groups (physical_groups s) (set_format (mesh_format s) spec_default))
                  F F Hen eq_refl).
  rewrite entities_via_raw in P3. change (set_entities _ _) with (before_nodes s) in P3.
  assert (P5 : exists spec', PIECE c
    ((if 0 <? e_num_elements (elements s) then save_elements s else wret) +++
     (if 0 <? zlen (node_data s) then save_node_data s else wret) +++
     (if 0 <? zlen (element_data s) then save_element_data s else wret) +++
     (if 0 <? zlen (element_node_data s) then save_element_node_data s else wret) +++
     (if nanospline c then
        save_nanospline_format s +++
        (if 0 <? zlen (curves s) then save_curves c s else wret) +++
        (if 0 <? zlen (patches s) then save_patches c s else wret)
      else wret)) (before_nodes s) spec').
  { eexists. eapply PIECE_seq; [apply (elements_PIECE c false); auto|].
    eapply PIECE_seq; [apply (node_data_PIECE c v41s false); auto|].
    eapply PIECE_seq; [apply (element_data_PIECE c v41s false); auto|].
    eapply PIECE_seq; [apply (element_node_data_PIECE c v41s false); auto|].
    apply (splines_PIECE c v41s false); auto. }
  destruct P1 as (t1 & E1 & L1). destruct P2 as (t2 & E2 & L2). destruct P3 as (t3 & E3 & L3).
  destruct P5 as (spec' & t5 & E5 & _).
  exists (t1 ++ t2 ++ t3), t5. eexists. split; [|split].
  - unfold save_msh. apply wseq_ok; [exact E1|]. apply wseq_ok; [exact E2|]. apply wseq_ok; [exact E3|].
    apply wseq_ok; [|exact E5].
    replace (0 <? n_num_nodes (nodes s)) with true by (symmetry; apply Z.ltb_lt; destruct Knn; lia).
    unfold save_nodes. cbv zeta. rewrite Hv, Ht. change (bytes_eqb v41s v41s) with true. cbn [Z.eqb]. cbv iota.
    apply wseq_ok; [apply out_ok|]. apply wseq_ok; [eapply save_nodes_b; exact (Kn NN)|apply out_ok].
  - unfold nodes_in, nodes_line, end_nodes_line. change [x0a] with endl.
    rewrite (nodes_payload_bytes (nodes s)). rewrite <- !app_assoc. reflexivity.
  - eapply LOADS_app; [exact L1|]. eapply LOADS_app; eassumption.
Qed.

Definition nodes_marker : bytes := str "$Nodes".

Lemma cut_meets : forall c s pre x, LOADS c pre spec_default (before_nodes s) ->
  meets c (pre ++ nodes_line ++ x) nodes_marker (before_nodes s) (opened (endl ++ x)).
Proof.
  intros c s pre x H. apply meets_after; [apply LOADS_complete; exact H|]. intros u Hu.
  unfold rd_token, nodes_line. change (str "$Nodes") with (x24 :: str "Nodes"). cbn [app].
  rewrite sentry_ws; [|exact Hu|reflexivity]. cbn [IStream.rest opened].
  change (x24 :: (str "Nodes" ++ [x0a]) ++ x) with (nodes_marker ++ (endl ++ x)).
  rewrite take_token_app by first [reflexivity|repeat constructor]. reflexivity.
Qed.

(** The section is read up to the end of the file. *)
Lemma meets_ends : forall c b name spec s spec' s1, meets c b name spec s -> is_section name = true ->
  dispatch c name spec s = Ok (spec', s1) -> eofb s1 = true -> load_msh c b = post_process c spec'.
Proof.
  intros c b name spec s spec' s1 (s0 & (n & R) & E & ET) IS D E1.
  assert (R' : reached c b (Main spec' s1)).
  { exists (n + 2)%nat. eapply steps_trans; [exact R|].
    eapply steps_S; [eapply step_section; eassumption|].
    eapply steps_S; [apply step_found; left; exact E1|constructor]. }
  rewrite (reached_result c b _ (Ok (spec', s1)) R'); [reflexivity|].
  split; [discriminate|]. exists 1%nat. cbn [run load_loop]. rewrite E1. reflexivity.
Qed.

Section File.
Variables (c : cfg) (s : MshSpec) (pre : bytes).
Hypotheses (ok : consistent41 c false s) (NN : n_num_nodes (nodes s) <> 0)
  (HL : LOADS c pre spec_default (before_nodes s)).

Lemma file_nodes : nodes_ok c false (nodes s) /\ size_ok (n_num_nodes (nodes s)).
Proof. destruct ok as [Hv Ht Hd [Kg Knn Kn Kne Ke Knd Ked Kend] Hen Hns]. auto. Qed.

Lemma dispatch_nodes : forall st, dispatch c nodes_marker (before_nodes s) st =
  bind (bind (op eat1) (fun _ => nodes_reader c)) (fun n => ret (set_nodes n (before_nodes s))) st.
Proof.
  intro st. destruct ok as [Hv Ht _ _ _ _].
  change (dispatch c nodes_marker (before_nodes s)) with (load_nodes c (before_nodes s)). unfold load_nodes. cbv zeta.
  change (mesh_format (before_nodes s)) with (mesh_format s). rewrite Hv, Ht.
  change (bytes_eqb v41s v41s) with true. cbn [Z.eqb]. cbv iota. rewrite <- nodes_reader_eq. reflexivity.
Qed.

Lemma dispatch_some : forall x, x <> [] -> dispatch c nodes_marker (before_nodes s) (opened (endl ++ x)) =
  bind (nodes_reader c) (fun n => ret (set_nodes n (before_nodes s))) (opened x).
Proof.
  intros x Hx. rewrite dispatch_nodes. unfold bind at 1 2, op. rewrite eat1_some by exact Hx. reflexivity.
Qed.

(** Nothing after the $Nodes line. *)
Lemma dispatch_none : dispatch c nodes_marker (before_nodes s) (opened (endl ++ [])) =
  bind (nodes_reader c) (fun n => ret (set_nodes n (before_nodes s))) dead.
Proof. rewrite dispatch_nodes. reflexivity. Qed.

Lemma post_41 : forall n, post_process c (set_nodes n (before_nodes s)) = Ok (set_nodes n (before_nodes s)).
Proof.
  intro n. destruct ok as [Hv _ _ _ _ _]. unfold post_process.
  change (version (mesh_format (set_nodes n (before_nodes s)))) with (version (mesh_format s)). rewrite Hv. reflexivity.
Qed.

Lemma payload_length : (0 < List.length (nodes_payload (nodes s)))%nat.
Proof. unfold nodes_payload, nodes_head. rewrite !app_length, le_length. lia. Qed.

Lemma file_at : forall before b after k, ndebug c = true -> n_blocks (nodes s) = before ++ b :: after ->
  (k < 8 * List.length (nb_data b))%nat ->
  load_msh c (pre ++ nodes_line ++ nodes_head (nodes s) ++ List.concat (map block_payload before) ++ block_head b ++
              firstn k (words8 (nb_data b))) =
  Ok (up_to_nodes (before ++ with_data (cut_words k (nb_data b)) b :: repeat no_block (List.length after)) s).
Proof.
  intros before b after k Hr E Hk. destruct file_nodes as [K1 K2].
  erewrite meets_ends; [|apply cut_meets; exact HL|reflexivity| |].
  - rewrite post_41. reflexivity.
  - rewrite dispatch_some by (unfold nodes_head; cbn [le app]; discriminate). unfold bind.
    rewrite (nodes_at_release c (nodes s) K1 K2 before b after k Hr E Hk). reflexivity.
  - reflexivity.
Qed.

Lemma file_release : forall k, ndebug c = true -> Forall (fun b => 0 <= nb_parametric b <= 3) (n_blocks (nodes s)) ->
  (k < List.length (nodes_payload (nodes s)))%nat ->
  exists s', load_msh c (pre ++ nodes_line ++ firstn k (nodes_payload (nodes s))) = Ok s'.
Proof.
  intros k Hr HP Hk. destruct file_nodes as [K1 K2].
  assert (D : exists n, dispatch c nodes_marker (before_nodes s) (opened (endl ++ firstn k (nodes_payload (nodes s)))) =
              Ok (set_nodes n (before_nodes s), dead)).
  { destruct k as [|k].
    - cbn [firstn]. rewrite dispatch_none. unfold bind at 1. destruct (nodes_facts c (nodes s) K1) as (S1 & L1 & Z1 & F1 & F0).
      unfold nodes_reader. rewrite !size_bind_dead, max_bind_dead, size_bind_dead. unfold bind, lift. rewrite release_dead by exact Hr.
      rewrite resize_fresh; [|reflexivity|lia|discriminate|].
      + cbn [Z.to_nat repeat mapM]. eexists. reflexivity.
      + destruct F0. exact H0.
    - destruct (nodes_CT c (nodes s) K1 K2 Hr HP (S k) Hk) as (n & E & _). exists n.
      rewrite dispatch_some; [unfold bind; rewrite E; reflexivity|].
      pose proof payload_length. destruct (nodes_payload (nodes s)); [cbn in *; lia|discriminate]. }
  destruct D as (n & D). exists (set_nodes n (before_nodes s)).
  erewrite meets_ends; [|apply cut_meets; exact HL|reflexivity|exact D|reflexivity]. apply post_41.
Qed.

Lemma file_debug : forall k, ndebug c = false -> (k < List.length (nodes_payload (nodes s)))%nat ->
  load_msh c (pre ++ nodes_line ++ firstn k (nodes_payload (nodes s))) = Abort.
Proof.
  intros k Hr Hk. destruct file_nodes as [K1 K2].
  eapply meets_fails; [apply cut_meets; exact HL|reflexivity|].
  replace (dispatch c nodes_marker (before_nodes s) (opened (endl ++ firstn k (nodes_payload (nodes s)))))
    with (@Abort (MshSpec * istream)); [exact I|]. symmetry.
  destruct k as [|k].
  - cbn [firstn]. rewrite dispatch_none. unfold bind at 1. unfold nodes_reader. rewrite !size_bind_dead, max_bind_dead, size_bind_dead, assert_bind_dead by exact Hr. reflexivity.
  - rewrite dispatch_some.
    + unfold bind. rewrite (nodes_CA c (nodes s) K1 K2 Hr (S k) Hk). reflexivity.
    + pose proof payload_length. destruct (nodes_payload (nodes s)); [cbn in *; lia|discriminate].
Qed.

(** Cut in or after the end marker. *)
Lemma file_end : forall k, (k <= List.length end_nodes_line)%nat ->
  load_msh c (pre ++ nodes_line ++ nodes_payload (nodes s) ++ firstn k end_nodes_line) =
  Ok (up_to_nodes (n_blocks (nodes s)) s).
Proof.
  intros k Hk. destruct file_nodes as [K1 K2].
  assert (D : dispatch c nodes_marker (before_nodes s) (opened (endl ++ nodes_payload (nodes s) ++ firstn k end_nodes_line)) =
    Ok (set_nodes (nodes s) (before_nodes s), opened (firstn k end_nodes_line))).
  { rewrite dispatch_some; [unfold bind; rewrite (nodes_ZB c (nodes s) K1 K2); reflexivity|].
    pose proof payload_length. destruct (nodes_payload (nodes s)); [cbn in *; lia|discriminate]. }
  assert (U : up_to_nodes (n_blocks (nodes s)) s = set_nodes (nodes s) (before_nodes s)).
  { unfold up_to_nodes. destruct (nodes s). reflexivity. }
  rewrite U, <- post_41.
  destruct (cut_meets c s pre (nodes_payload (nodes s) ++ firstn k end_nodes_line) HL) as (s0 & (n & R) & E & ET).
  set (spec' := set_nodes (nodes s) (before_nodes s)) in *.
  assert (R' : reached c (pre ++ nodes_line ++ nodes_payload (nodes s) ++ firstn k end_nodes_line)
     (Fwd (end_marker nodes_marker) [] spec' (opened (firstn k end_nodes_line)))).
  { exists (n + 1)%nat. eapply steps_trans; [exact R|].
    eapply steps_S; [eapply step_section; [exact E|exact ET|reflexivity|exact D]|constructor]. }
  do 11 (destruct k as [|k];
    [erewrite reached_result; [|exact R'|split; [|exists 4%nat; reflexivity]; discriminate]; reflexivity|]).
  cbn in Hk. lia.
Qed.
End File.
