(** Fuel is never the reason for [Diverge]. *)

From Verif Require Import Model.Save Spec.Steps Proofs.BytesP Proofs.RtBase Proofs.Mono.

(** ** Computations that never diverge *)

Definition nodiv {A} (m : M A) : Prop := forall s, m s <> Diverge.

Lemma nodiv_bind : forall A B (m : M A) (f : A -> M B),
  nodiv m -> (forall a, nodiv (f a)) -> nodiv (bind m f).
Proof.
  intros A B m f Hm Hf s. unfold bind. specialize (Hm s).
  destruct (m s) as [[a s1]|e|u| |]; try discriminate; [apply Hf|contradiction].
Qed.

Lemma nodiv_ret : forall A (a : A), nodiv (ret a).
Proof. intros A a s. discriminate. Qed.
Lemma nodiv_throw : forall A e, nodiv (@throw A e).
Proof. intros A e s. discriminate. Qed.
Lemma nodiv_undef : forall A u, nodiv (@undef A u).
Proof. intros A u s. discriminate. Qed.
Lemma nodiv_op : forall A (f : istream -> A * istream), nodiv (op f).
Proof. intros A f s. discriminate. Qed.
Lemma nodiv_use : forall A (o : option A), nodiv (use o).
Proof. intros A [a|] s; discriminate. Qed.
Lemma nodiv_lift : forall A (o : outcome A), o <> Diverge -> nodiv (lift o).
Proof. intros A [a|e|u| |] H s; try discriminate. contradiction. Qed.
Lemma nodiv_massert : forall c b, nodiv (massert c b).
Proof. intros c b s. unfold massert. destruct (ndebug c), b; discriminate. Qed.
Lemma nodiv_assert_good : forall c, nodiv (assert_good c).
Proof. intros c s. apply nodiv_massert. Qed.

Lemma nodiv_mapM : forall A B (f : A -> M B) l, (forall x, nodiv (f x)) -> nodiv (mapM f l).
Proof.
  intros A B f l H. induction l as [|x l IH]; cbn [mapM]; [apply nodiv_ret|].
  apply nodiv_bind; [apply H|]. intro. apply nodiv_bind; [exact IH|]. intro. apply nodiv_ret.
Qed.

Lemma nodiv_iterM : forall S n (f : S -> M S), (forall s, nodiv (f s)) -> forall s, nodiv (iterM n f s).
Proof.
  intros S n f H. induction n as [|n IH]; intro s; cbn [iterM]; [apply nodiv_ret|].
  apply nodiv_bind; [apply H|exact IH].
Qed.

Lemma nodiv_fill : forall A cnt (f : A -> M A) v, (forall x, nodiv (f x)) -> nodiv (fill cnt f v).
Proof.
  intros A cnt f v H. unfold fill. destruct (cnt =? zlen v); [apply nodiv_mapM; exact H|apply nodiv_undef].
Qed.

Lemma can_hold_nodiv : forall A c sz n (old : list A), can_hold c sz n old <> Diverge.
Proof.
  intros. unfold can_hold.
  repeat match goal with |- context [if ?b then _ else _] => destruct b end; discriminate.
Qed.

Lemma resize_nodiv : forall A c sz (d : A) n old, resize c sz d n old <> Diverge.
Proof.
  intros. unfold resize. pose proof (can_hold_nodiv A c sz n old).
  destruct (can_hold c sz n old); try discriminate. contradiction.
Qed.

Lemma emplace_nodiv : forall A c sz (x : A) old, emplace_back c sz x old <> Diverge.
Proof.
  intros. unfold emplace_back. pose proof (can_hold_nodiv A c sz (zlen old + 1) old).
  destruct (can_hold c sz (zlen old + 1) old); try discriminate. contradiction.
Qed.

Lemma assert_supported_nodiv : forall t, assert_supported t <> Diverge.
Proof. intro t. unfold assert_supported. destruct ((t <=? 0) || (32 <=? t)); discriminate. Qed.

Lemma at_arr_nodiv : forall l i, at_arr l i <> Diverge.
Proof. intros. unfold at_arr. destruct (nth_error l (Z.to_nat i)); discriminate. Qed.

Lemma npe_nodiv : forall t, nodes_per_element t <> Diverge.
Proof.
  intro t. unfold nodes_per_element. pose proof (assert_supported_nodiv t).
  destruct (assert_supported t); try discriminate; [apply at_arr_nodiv|contradiction].
Qed.

Lemma dim_nodiv : forall t, get_element_dim t <> Diverge.
Proof.
  intro t. unfold get_element_dim. pose proof (assert_supported_nodiv t).
  destruct (assert_supported t); try discriminate; [apply at_arr_nodiv|contradiction].
Qed.

Lemma epn_nodiv : forall p d, entries_per_node p d <> Diverge.
Proof. intros. unfold entries_per_node. destruct (_ <? _); discriminate. Qed.

Lemma v22_resizes_nodiv : forall c n, v22_resizes c n <> Diverge.
Proof.
  intros. unfold v22_resizes. pose proof (can_hold_nodiv Z c sz_size n []).
  destruct (can_hold c sz_size n []); try discriminate; [apply can_hold_nodiv|contradiction].
Qed.

Lemma nodiv_raw_array : forall f l, nodiv (rd_raw_array f l).
Proof.
  intros. unfold rd_raw_array. apply nodiv_bind; [apply nodiv_op|]. intro.
  apply nodiv_mapM. intro. apply nodiv_op.
Qed.

Ltac nodiv1 :=
  first
  [ apply nodiv_ret | apply nodiv_throw | apply nodiv_undef | apply nodiv_op | apply nodiv_use
  | apply nodiv_massert | apply nodiv_assert_good | apply nodiv_raw_array
  | apply nodiv_lift;
    first [apply resize_nodiv | apply can_hold_nodiv | apply npe_nodiv | apply dim_nodiv
          | apply epn_nodiv | apply emplace_nodiv | apply v22_resizes_nodiv]
  | (apply nodiv_mapM; intro) | (apply nodiv_fill; intro) | (apply nodiv_iterM; intro)
  | apply nodiv_bind; [|intro] ].
Ltac nodiv_go :=
  repeat first [ nodiv1 | match goal with
    | |- nodiv (if ?b then _ else _) => destruct b
    | |- nodiv (let (_, _) := ?p in _) => destruct p
    | |- nodiv (match ?l with [] => _ | _ => _ end) => destruct l
    end ].

(** The 2.2 binary element loop: each round that continues has read three ints. *)
Lemma rd_raw_int_opt_got : forall s v s', rd_raw_int_opt None s = (Some v, s') ->
  (List.length (rest s') + 4 <= List.length (rest s))%nat.
Proof.
  intros s v s' H. unfold rd_raw_int_opt, rd_raw in H. rewrite repeat_length in H.
  destruct (sentry_noskip s) as [ok s1] eqn:ES. unfold sentry_noskip in ES.
  destruct (good s) eqn:G; injection ES as <- <-.
  - destruct (List.length (firstn 4 (rest s)) <? 4)%nat eqn:L.
    + apply Nat.ltb_lt in L.
      destruct (List.length (firstn 4 (rest s)) =? 4)%nat eqn:E; [|discriminate].
      apply Nat.eqb_eq in E. lia.
    + apply Nat.ltb_ge in L. rewrite firstn_length in L.
      apply (f_equal snd) in H. cbn [snd] in H. rewrite <- H.
      change (List.length (skipn 4 (rest s)) + 4 <= List.length (rest s))%nat.
      rewrite skipn_length. lia.
  - discriminate.
Qed.

Lemma elements_loop_nodiv : forall f c N st s, (List.length (rest s) < f)%nat ->
  v22_elements_loop f c N st s <> Diverge.
Proof.
  induction f as [|f IH]; intros c N st s L; [lia|].
  cbn [v22_elements_loop]. destruct (vb_done st =? N); [discriminate|].
  unfold bind at 1. destruct (op (rd_raw_int_opt None) s) as [[typ0 s1]|e|u| |] eqn:E1; try discriminate.
  unfold bind at 1. destruct (op (rd_raw_int_opt None) s1) as [[nb0 s2]|e|u| |] eqn:E2; try discriminate.
  unfold bind at 1. destruct (op (rd_raw_int_opt None) s2) as [[nt0 s3]|e|u| |] eqn:E3; try discriminate.
  pose proof (mono_op_raw_int_opt None _ _ _ E1) as (L1 & _).
  pose proof (mono_op_raw_int_opt None _ _ _ E2) as (L2 & _).
  unfold bind at 1. destruct nt0 as [nt|]; [|discriminate]. cbn [use ret].
  assert (L3 : (List.length (rest s3) + 4 <= List.length (rest s2))%nat).
  { apply (rd_raw_int_opt_got _ nt). injection E3 as E3. exact E3. }
  assert (Q : nodiv (fun s4 : istream =>
    if (List.length (rest s4) <=? List.length (rest s3))%nat
    then (tags <- lift (resize c sz_int 0 (to_size nt) (vb_tags st)) ;;
          typ <- use typ0 ;;
          n <- lift (nodes_per_element typ) ;;
          ids <- lift (resize c sz_int 0 n (vb_ids st)) ;;
          nb <- use nb0 ;;
          r <- iterM (Z.to_nat (Z.min (to_size nb) (N - vb_done st + 1)))
                 (v22_element_binary c typ nt N)
                 (None, {| vb_tags := tags; vb_ids := ids; vb_min := vb_min st; vb_max := vb_max st;
                    vb_done := vb_done st; vb_blocks := vb_blocks st; vb_pm := vb_pm st |}) ;;
          v22_elements_loop f c N (snd r)) s4
    else Abort)).
  { intros s4. destruct (_ <=? _)%nat eqn:L4; [|discriminate]. apply Nat.leb_le in L4.
    unfold bind at 1. pose proof (resize_nodiv Z c sz_int 0 (to_size nt) (vb_tags st)).
    destruct (resize c sz_int 0 (to_size nt) (vb_tags st)) as [tags|e|u| |]; try discriminate; [|contradiction].
    cbn [lift]. unfold bind at 1. destruct typ0 as [typ|]; [|discriminate]. cbn [use ret].
    unfold bind at 1. pose proof (npe_nodiv typ).
    destruct (nodes_per_element typ) as [n|e|u| |]; try discriminate; [|contradiction]. cbn [lift].
    unfold bind at 1. pose proof (resize_nodiv Z c sz_int 0 n (vb_ids st)).
    destruct (resize c sz_int 0 n (vb_ids st)) as [ids|e|u| |]; try discriminate; [|contradiction]. cbn [lift].
    unfold bind at 1. destruct nb0 as [nb|]; [|discriminate]. cbn [use ret].
    unfold bind.
    match goal with |- match ?m s4 with _ => _ end <> _ => set (it := m) end.
    assert (ND : nodiv it).
    { unfold it. apply nodiv_iterM. intros [id0 st0]. unfold v22_element_binary. nodiv_go. }
    assert (MO : mono it).
    { unfold it. apply mono_iterM. intros [id0 st0]. unfold v22_element_binary. mono_go. }
    specialize (ND s4). destruct (it s4) as [[r s5]|e|u| |] eqn:E5; try discriminate; [|contradiction].
    apply IH. apply MO in E5. destruct E5 as (L5 & _). lia. }
  specialize (Q s3). cbv beta in Q. rewrite Nat.leb_refl in Q. exact Q.
Qed.

Lemma nodiv_mesh_format : forall spec, nodiv (load_mesh_format spec).
Proof. intro. unfold load_mesh_format. nodiv_go. Qed.

Lemma nodiv_nodes : forall c spec, nodiv (load_nodes c spec).
Proof.
  intros. unfold load_nodes, v41_load_nodes_ascii, v41_load_nodes_binary, v22_load_nodes_ascii,
    v22_load_nodes_binary, v41_node_block_ascii, v41_node_block_binary, v22_node_ascii, v22_node_binary, rd_raw_into.
  nodiv_go.
Qed.

Lemma nodiv_entities : forall c spec, nodiv (load_entities c spec).
Proof.
  intros. unfold load_entities, v41_load_entities_ascii, v41_load_entities_binary, resize_entities,
    point_ascii, point_binary, entity_ascii, entity_binary, ints_ascii, ints_binary. nodiv_go.
Qed.

Lemma nodiv_groups : forall c spec, nodiv (load_physical_groups c spec).
Proof. intros. unfold load_physical_groups, load_group. nodiv_go. Qed.

Lemma nodiv_data : forall c v b e, nodiv (load_data c v b e).
Proof. intros. unfold load_data, load_data_header, entry_binary, entry_ascii. nodiv_go. Qed.

Lemma nodiv_curves : forall c spec, nodiv (load_curves c spec).
Proof. intros. unfold load_curves, load_curve. nodiv_go. Qed.

Lemma nodiv_patches : forall c spec, nodiv (load_patches c spec).
Proof. intros. unfold load_patches, load_patch. nodiv_go. Qed.

Lemma nodiv_elements : forall c spec, nodiv (load_elements c spec).
Proof.
  intros. unfold load_elements, v41_load_elements_ascii, v41_load_elements_binary,
    v22_load_elements_ascii, v22_load_elements_binary, v41_element_block_ascii,
    v41_element_block_binary, v22_element_ascii.
  nodiv_go. intro s. apply elements_loop_nodiv. lia.
Qed.

Lemma nodiv_dispatch : forall c buf spec, nodiv (dispatch c buf spec).
Proof.
  intros. unfold dispatch.
  repeat match goal with |- nodiv (if ?b then _ else _) => destruct b end.
  - apply nodiv_mesh_format.
  - apply nodiv_entities.
  - apply nodiv_groups.
  - apply nodiv_nodes.
  - apply nodiv_elements.
  - unfold load_node_data. apply nodiv_bind; [apply nodiv_data|intro; apply nodiv_ret].
  - unfold load_element_data. apply nodiv_bind; [apply nodiv_data|intro; apply nodiv_ret].
  - unfold load_element_node_data. apply nodiv_bind; [apply nodiv_data|intro; apply nodiv_ret].
  - unfold load_nanospline_format. nodiv_go.
  - apply nodiv_curves.
  - apply nodiv_patches.
  - apply nodiv_ret.
Qed.

(** Post-processing has no unbounded loop. *)
Lemma ofold_nodiv : forall A S (f : A -> S -> outcome S) l s,
  (forall x s, f x s <> Diverge) -> ofold f l s <> Diverge.
Proof.
  intros A S f l s H. revert s. induction l as [|x l IH]; intro s; cbn [ofold]; [discriminate|].
  specialize (H x s). destruct (f x s); try discriminate; [apply IH|contradiction].
Qed.

Lemma obind_nodiv : forall A B (x : outcome A) (f : A -> outcome B),
  x <> Diverge -> (forall a, f a <> Diverge) -> obind x f <> Diverge.
Proof. intros A B x f H1 H2. destruct x; try discriminate; [apply H2|contradiction]. Qed.

Lemma at_nodiv : forall A (l : list A) i, at_ l i <> Diverge.
Proof. intros. unfold at_. destruct (i <? 0); [discriminate|]. destruct (nth_error l (Z.to_nat i)); discriminate. Qed.

Lemma post_process_nodiv : forall c spec, post_process c spec <> Diverge.
Proof.
  intros c spec. unfold post_process. destruct (bytes_eqb _ _); [|discriminate].
  apply obind_nodiv.
  - unfold regroup_nodes. apply obind_nodiv; [apply can_hold_nodiv|]. intros _.
    apply obind_nodiv.
    + apply ofold_nodiv. intros b a. unfold mark_block.
      apply obind_nodiv; [apply npe_nodiv|]. intro n. apply ofold_nodiv. intros i a'.
      apply ofold_nodiv. intros j a''. apply obind_nodiv; [apply at_nodiv|]. intro node.
      unfold mark. destruct (_ <=? _); discriminate.
    + intro a. apply obind_nodiv; [|discriminate].
      apply ofold_nodiv. intros b st. apply ofold_nodiv. intros i st'. unfold regroup_node.
      apply obind_nodiv; [apply at_nodiv|]. intro t. destruct (_ <=? _); [discriminate|].
      destruct (a _) as [dim tag].
      match goal with |- match ?r with _ => _ end <> _ => destruct r end;
        [destruct (ndebug c); discriminate|].
      repeat (apply obind_nodiv; [apply at_nodiv|intro]). discriminate.
  - intro s. unfold regroup_elements. apply obind_nodiv; [apply can_hold_nodiv|]. intros _.
    apply obind_nodiv; [|discriminate]. apply ofold_nodiv. intros b st. unfold regroup_element.
    match goal with |- match ?r with _ => _ end <> _ => destruct r end; discriminate.
Qed.

(** ** forward_to *)

Lemma forward_ok_mono : forall f flag buf s r, forward_loop f flag buf s = Ok r ->
  forall f', (f <= f')%nat -> forward_loop f' flag buf s = Ok r.
Proof.
  induction f as [|f IH]; intros flag buf s r H f' L; [discriminate|].
  destruct f' as [|f']; [lia|]. cbn [forward_loop] in *.
  destruct (eofb s || bytes_eqb buf flag); [exact H|].
  destruct (rd_token buf s) as [buf' s']. apply IH; [exact H|lia].
Qed.

Lemma forward_stuck : forall f flag buf s, stuck s -> buf <> flag ->
  forward_loop f flag buf s = Diverge.
Proof.
  induction f as [|f IH]; intros flag buf s [F E] N; [reflexivity|].
  cbn [forward_loop]. rewrite E. apply bytes_eqb_neq in N. rewrite N. cbn [orb].
  rewrite rd_token_bad by (unfold good; rewrite F; apply andb_false_r).
  rewrite set_fail_failed by exact F. apply IH; [split; assumption|].
  apply bytes_eqb_neq. exact N.
Qed.

Lemma steps_trans : forall c n p q, steps c n p q -> forall m r, steps c m q r -> steps c (n + m) p r.
Proof. intros c n p q H. induction H; intros m r' H'; [exact H'|]. cbn [Nat.add]. econstructor; eauto. Qed.

Lemma not_good_cases : forall s, good s = false -> eofb s = false -> stuck s.
Proof.
  intros s G E. split; [|exact E]. unfold good in G. rewrite E in G. cbn in G.
  destruct (failb s); [reflexivity|discriminate].
Qed.

(** Enough fuel decides the loop. *)
Lemma forward_enough : forall f flag buf s, (List.length (rest s) + 2 <= f)%nat ->
  (exists s', forward_loop f flag buf s = Ok (tt, s') /\ adv s s' /\
     (forall c spec, exists n, steps c n (Fwd flag buf spec s) (Main spec s'))) \/
  (exists flag' buf' s', stuck s' /\ buf' <> flag' /\ (forall f', forward_loop f' flag buf s = Diverge) /\
     (forall c spec, exists n, steps c n (Fwd flag buf spec s) (Fwd flag' buf' spec s'))).
Proof.
  induction f as [|f IH]; intros flag buf s L; [lia|].
  cbn [forward_loop]. destruct (eofb s || bytes_eqb buf flag) eqn:E.
  - left. exists s. split; [reflexivity|]. split; [apply adv_refl|].
    intros c spec. exists 1%nat. eapply steps_S; [|constructor].
    apply step_found. apply orb_true_iff in E. destruct E as [E|E]; [left; exact E|right].
    apply bytes_eqb_eq. exact E.
  - apply orb_false_iff in E. destruct E as [E N].
    pose proof N as N'. apply bytes_eqb_neq in N'.
    destruct (good s) eqn:G.
    + destruct (rd_token buf s) as [buf' s'] eqn:ET.
      pose proof (adv_rd_token buf s) as A. rewrite ET in A. cbn [snd] in A.
      assert (ST : forall c spec, step c (Fwd flag buf spec s) (Fwd flag buf' spec s')).
      { intros c spec. eapply step_skip; eauto. }
      pose proof (rd_token_progress buf s G) as P. rewrite ET in P. cbn [snd] in P.
      destruct (eofb s') eqn:E'.
      * destruct f as [|f]; [lia|]. left. exists s'. cbn [forward_loop]. rewrite E'. cbn [orb].
        split; [reflexivity|]. split; [exact A|]. intros c spec. exists 2%nat.
        eapply steps_S; [apply ST|]. eapply steps_S; [|constructor]. apply step_found. left. exact E'.
      * destruct P as [P|P]; [congruence|].
        destruct (IH flag buf' s' ltac:(lia)) as [(s2 & H1 & H2 & H3)|(fl & bu & s2 & H1 & H2 & H3 & H4)].
        -- left. exists s2. split; [exact H1|]. split; [eapply adv_trans; eauto|].
           intros c spec. destruct (H3 c spec) as (n & Hn). exists (S n). eapply steps_S; eauto.
        -- right. exists fl, bu, s2. repeat split; try apply H1; auto.
           ++ intros [|f']; [reflexivity|]. cbn [forward_loop]. rewrite E, N. cbn [orb].
              rewrite ET. apply H3.
           ++ intros c spec. destruct (H4 c spec) as (n & Hn). exists (S n). eapply steps_S; eauto.
    + right. exists flag, buf, s. pose proof (not_good_cases s G E) as S. split; [exact S|].
      split; [exact N'|]. split; [intro; apply forward_stuck; assumption|].
      intros c spec. exists O. constructor.
Qed.

(** ** The main loop *)

Lemma load_step_eq : forall c spec s buf s1, rd_token [] s = (buf, s1) ->
  load_step c spec s = if negb (is_section buf) then Ok (spec, s1)
  else obind (dispatch c buf spec s1) (fun r =>
       obind (forward_to (end_marker buf) (snd r)) (fun r' => Ok (fst r, snd r'))).
Proof.
  intros c spec s buf s1 E. unfold load_step. rewrite E.
  destruct (negb (is_section buf)); [reflexivity|].
  unfold bind. destruct (dispatch c buf spec s1) as [[spec' s2]|e|u| |]; try reflexivity.
  cbn [obind fst snd].
  destruct (forward_to (end_marker buf) s2) as [[x s3]|e|u| |]; reflexivity.
Qed.

Lemma load_ok_mono : forall f c spec s r, load_loop f c spec s = r -> r <> Diverge ->
  forall f', (f <= f')%nat -> load_loop f' c spec s = r.
Proof.
  induction f as [|f IH]; intros c spec s r H N f' L; [cbn in H; congruence|].
  destruct f' as [|f']; [lia|]. cbn [load_loop] in *.
  destruct (eofb s); [exact H|].
  destruct (load_step c spec s) as [[spec' s']|e|u| |]; try exact H.
  cbn [obind fst snd] in *. apply IH; [exact H|exact N|lia].
Qed.

Lemma load_stuck : forall f c spec s, stuck s -> load_loop f c spec s = Diverge.
Proof.
  induction f as [|f IH]; intros c spec s [F E]; [reflexivity|].
  cbn [load_loop]. rewrite E.
  rewrite (load_step_eq c spec s [] s).
  - cbn [is_section negb obind fst snd]. apply IH. split; assumption.
  - rewrite rd_token_bad by (unfold good; rewrite F; apply andb_false_r).
    rewrite set_fail_failed by exact F. reflexivity.
Qed.

Lemma load_enough : forall f c spec s, (List.length (rest s) + 2 <= f)%nat ->
  load_loop f c spec s <> Diverge \/
  (exists p n, stuck (stream_of p) /\ steps c n (Main spec s) p /\
     forall f', load_loop f' c spec s = Diverge).
Proof.
  induction f as [|f IH]; intros c spec s L; [lia|].
  cbn [load_loop]. destruct (eofb s) eqn:E; [left; discriminate|].
  destruct (good s) eqn:G.
  2:{ right. exists (Main spec s), O. pose proof (not_good_cases s G E) as S.
      split; [exact S|]. split; [constructor|]. intro; apply load_stuck; exact S. }
  destruct (rd_token [] s) as [buf s1] eqn:ET.
  pose proof (load_step_eq c spec s buf s1 ET) as LS.
  pose proof (adv_rd_token [] s) as A. rewrite ET in A. cbn [snd] in A.
  pose proof (rd_token_progress [] s G) as P. rewrite ET in P. cbn [snd] in P.
  assert (Q : forall spec' s', adv s1 s' -> load_step c spec s = Ok (spec', s') ->
    (exists n, steps c n (Main spec s) (Main spec' s')) ->
    load_loop f c spec' s' <> Diverge \/
    (exists p n, stuck (stream_of p) /\ steps c n (Main spec s) p /\
       forall f', load_loop f' c spec s = Diverge)).
  { intros spec' s' A' ES (n & Hn). destruct P as [P|P].
    - left. apply (adv_eof _ _ A') in P. destruct f as [|f]; [lia|]. cbn [load_loop]. rewrite P. discriminate.
    - assert (L' : (List.length (rest s') <= List.length (rest s1))%nat) by apply A'.
      destruct (IH c spec' s' ltac:(lia)) as [H|(p & m & S1 & S2 & S3)]; [left; exact H|right].
      exists p, (n + m)%nat. split; [exact S1|]. split; [eapply steps_trans; eauto|].
      intros [|f']; [reflexivity|]. cbn [load_loop]. rewrite E, ES. cbn [obind fst snd]. apply S3. }
  destruct (is_section buf) eqn:IS; cbn [negb] in LS.
  - pose proof (nodiv_dispatch c buf spec s1) as ND.
    destruct (dispatch c buf spec s1) as [[spec' s2]|e|u| |] eqn:ED;
      try (rewrite LS; cbn [obind]; left; discriminate); [|contradiction].
    cbn [obind fst snd] in LS. pose proof (mono_dispatch c buf spec _ _ _ ED) as A2.
    assert (ST : step c (Main spec s) (Fwd (end_marker buf) [] spec' s2)).
    { eapply step_section; eauto. }
    unfold forward_to in LS.
    destruct (forward_enough (S (S (List.length (rest s2)))) (end_marker buf) [] s2 ltac:(lia))
      as [(s3 & H1 & H2 & H3)|(fl & bu & s3 & H1 & H2 & H3 & H4)].
    + rewrite H1 in LS. cbn [obind snd] in LS. rewrite LS. cbn [obind fst snd].
      apply Q; [eapply adv_trans; eauto|exact LS|].
      destruct (H3 c spec') as (n & Hn). exists (S n). eapply steps_S; eauto.
    + rewrite H3 in LS. cbn [obind] in LS. rewrite LS. cbn [obind]. right.
      destruct (H4 c spec') as (n & Hn). exists (Fwd fl bu spec' s3), (S n).
      split; [exact H1|]. split; [eapply steps_S; eauto|].
      intros [|f']; [reflexivity|]. cbn [load_loop]. rewrite E, LS. reflexivity.
  - rewrite LS. cbn [obind fst snd]. apply Q; [apply adv_refl|exact LS|].
    exists 1%nat. eapply steps_S; [|constructor]. eapply step_word; eauto.
Qed.

(** Any other fuel gives the same answer or runs out. *)
Lemma load_fuel_irrelevant : forall f c b, load_msh_fuel f c b <> Diverge ->
  load_msh c b = load_msh_fuel f c b.
Proof.
  intros f c b H. unfold load_msh, load_msh_fuel in *.
  assert (N : load_loop f c spec_default (opened b) <> Diverge).
  { intro E. rewrite E in H. apply H. reflexivity. }
  destruct (load_enough (S (S (List.length b))) c spec_default (opened b)) as [N2|(p & n & _ & _ & D)].
  - cbn [opened IStream.rest]. lia.
  - f_equal. destruct (Nat.le_ge_cases f (S (S (List.length b)))) as [L|L].
    + apply (load_ok_mono f); auto.
    + symmetry. apply (load_ok_mono (S (S (List.length b)))); auto.
  - rewrite D in N. contradiction.
Qed.

(** ** Divergence exactly characterised *)

(** Meaning of "the rest of the computation from this loop test diverges". *)
Definition diverges (c : cfg) (p : point) : Prop :=
  match p with
  | Main spec s => forall f, load_loop f c spec s = Diverge
  | Fwd flag buf spec s =>
      (forall f, forward_loop f flag buf s = Diverge) \/
      (exists s', (exists f, forward_loop f flag buf s = Ok (tt, s')) /\
         forall f, load_loop f c spec s' = Diverge)
  end.

Lemma stuck_diverges : forall c p, stuck (stream_of p) -> diverges c p.
Proof.
  intros c [spec s|flag buf spec s] S; cbn [diverges stream_of] in *.
  - intro. apply load_stuck. exact S.
  - destruct (bytes_eqb buf flag) eqn:B.
    + right. exists s. split; [|intro; apply load_stuck; exact S].
      exists 1%nat. cbn [forward_loop]. rewrite B, orb_true_r. reflexivity.
    + left. intro. apply forward_stuck; [exact S|]. apply bytes_eqb_neq. exact B.
Qed.

Lemma diverges_back : forall c p q, step c p q -> diverges c q -> diverges c p.
Proof.
  intros c p q H D. destruct H as [spec s buf s1 E ET IS|spec s buf s1 spec' s2 E ET IS ED
                                  |flag buf spec s buf' s' E N ET|flag buf spec s C]; cbn [diverges] in *.
  - intros [|f]; [reflexivity|]. cbn [load_loop]. rewrite E.
    rewrite (load_step_eq c spec s buf s1 ET), IS. cbn [negb obind fst snd]. apply D.
  - intros [|f]; [reflexivity|]. cbn [load_loop]. rewrite E.
    rewrite (load_step_eq c spec s buf s1 ET), IS, ED. cbn [negb obind fst snd]. unfold forward_to.
    destruct D as [D|(s3 & (f0 & D1) & D2)].
    + rewrite D. reflexivity.
    + destruct (forward_enough (S (S (List.length (rest s2)))) (end_marker buf) [] s2 ltac:(lia))
        as [(s4 & H1 & _)|(fl & bu & s4 & _ & _ & H3 & _)].
      * rewrite H1. cbn [obind fst snd].
        assert (s4 = s3).
        { destruct (Nat.le_ge_cases f0 (S (S (List.length (rest s2))))) as [L|L].
          - rewrite (forward_ok_mono _ _ _ _ _ D1 _ L) in H1. congruence.
          - rewrite (forward_ok_mono _ _ _ _ _ H1 _ L) in D1. congruence. }
        subst s4. apply D2.
      * rewrite H3 in D1. discriminate.
  - apply bytes_eqb_neq in N.
    destruct D as [D|(s3 & (f0 & D1) & D2)].
    + left. intros [|f]; [reflexivity|]. cbn [forward_loop]. rewrite E, N, ET. cbn [orb]. apply D.
    + right. exists s3. split; [|exact D2]. exists (S f0). cbn [forward_loop].
      rewrite E, N, ET. cbn [orb]. exact D1.
  - right. exists s. split; [|exact D]. exists 1%nat. cbn [forward_loop].
    replace (eofb s || bytes_eqb buf flag) with true; [reflexivity|].
    symmetry. apply orb_true_iff. destruct C as [C|C]; [left; exact C|right; apply bytes_eqb_eq; exact C].
Qed.

Lemma diverges_reached : forall c n p q, steps c n p q -> diverges c q -> diverges c p.
Proof. intros c n p q H. induction H; [auto|]. intro D. eapply diverges_back; eauto. Qed.

(** A stuck loop test is followed by another one. *)
Lemma stuck_step : forall c p, stuck (stream_of p) ->
  exists q, step c p q /\ stuck (stream_of q).
Proof.
  intros c p S. pose proof S as [F E].
  assert (G : good (stream_of p) = false) by (unfold good; rewrite F; apply andb_false_r).
  destruct p as [spec s|flag buf spec s]; cbn [stream_of] in *.
  - exists (Main spec s). split; [|exact S]. eapply step_word; [exact E| |].
    + rewrite rd_token_bad by exact G. rewrite set_fail_failed by exact F. reflexivity.
    + reflexivity.
  - destruct (bytes_eqb buf flag) eqn:B.
    + exists (Main spec s). split; [|exact S]. apply step_found. right. apply bytes_eqb_eq. exact B.
    + exists (Fwd flag buf spec s). split; [|exact S]. eapply step_skip; [exact E| |].
      * apply bytes_eqb_neq. exact B.
      * rewrite rd_token_bad by exact G. rewrite set_fail_failed by exact F. reflexivity.
Qed.

Lemma stuck_forever : forall c n p, stuck (stream_of p) -> exists q, steps c n p q /\ stuck (stream_of q).
Proof.
  intros c n. induction n as [|n IH]; intros p S.
  - exists p. split; [constructor|exact S].
  - destruct (stuck_step c p S) as (q & H & S'). destruct (IH q S') as (r & H' & S'').
    exists r. split; [econstructor; eauto|exact S''].
Qed.

(** Steps out of a loop test that is not stuck make progress. *)
Definition measure (p : point) : nat :=
  match p with
  | Main _ s => if eofb s then O else S (S (2 * List.length (rest s)))
  | Fwd _ _ _ s => if eofb s then 1%nat else S (S (S (2 * List.length (rest s))))
  end.

Lemma step_measure : forall c p q, step c p q -> good (stream_of p) = true \/ eofb (stream_of p) = true ->
  (measure q < measure p)%nat.
Proof.
  intros c p q H G. destruct H as [spec s buf s1 E ET IS|spec s buf s1 spec' s2 E ET IS ED
                                  |flag buf spec s buf' s' E N ET|flag buf spec s C]; cbn [measure stream_of] in *.
  - rewrite E. destruct G as [G|G]; [|congruence].
    pose proof (rd_token_progress [] s G) as P. rewrite ET in P. cbn [snd] in P.
    destruct (eofb s1); [lia|]. destruct P as [P|P]; [discriminate|lia].
  - rewrite E. destruct G as [G|G]; [|congruence].
    pose proof (rd_token_progress [] s G) as P. rewrite ET in P. cbn [snd] in P.
    pose proof (mono_dispatch c buf spec _ _ _ ED) as A2. pose proof A2 as (L & _).
    destruct (eofb s2) eqn:E2; [lia|]. destruct P as [P|P].
    + apply (adv_eof _ _ A2) in P. congruence.
    + lia.
  - rewrite E. destruct G as [G|G]; [|congruence].
    pose proof (rd_token_progress buf s G) as P. rewrite ET in P. cbn [snd] in P.
    destruct (eofb s'); [lia|]. destruct P as [P|P]; [discriminate|lia].
  - destruct (eofb s); lia.
Qed.

Lemma good_or_stuck : forall s, good s = true \/ eofb s = true \/ stuck s.
Proof.
  intro s. destruct (good s) eqn:G; [auto|]. destruct (eofb s) eqn:E; [auto|].
  right. right. apply not_good_cases; assumption.
Qed.

Lemma steps_no_stuck_bound : forall c n p q, steps c n p q ->
  (forall m r, steps c m p r -> ~ stuck (stream_of r)) -> (n + measure q <= measure p)%nat.
Proof.
  intros c n p q H. induction H as [p|n p q r H1 H2 IH]; intro NS; [lia|].
  assert (M : (measure q < measure p)%nat).
  { eapply step_measure; [exact H1|]. destruct (good_or_stuck (stream_of p)) as [G|[G|G]]; auto.
    exfalso. apply (NS O p); [constructor|exact G]. }
  assert (IH' : (n + measure r <= measure q)%nat).
  { apply IH. intros m r' Hm. apply (NS (S m)). econstructor; eauto. }
  lia.
Qed.

Theorem diverge_iff_stuck : forall c b,
  load_msh c b = Diverge <-> exists p, reached c b p /\ stuck (stream_of p).
Proof.
  intros c b. split.
  - intro H. unfold load_msh, load_msh_fuel in H.
    destruct (load_enough (S (S (List.length b))) c spec_default (opened b)) as [N|(p & n & S & R & _)].
    + cbn [opened IStream.rest]. lia.
    + exfalso. destruct (load_loop _ c spec_default (opened b)) as [[sp s]|e|u| |]; try discriminate.
      * cbn [obind fst] in H. apply (post_process_nodiv c sp). exact H.
      * contradiction.
    + exists p. split; [exists n; exact R|exact S].
  - intros (p & (n & R) & S). apply (stuck_diverges c) in S.
    apply (diverges_reached c n _ _ R) in S. cbn [start diverges] in S.
    unfold load_msh, load_msh_fuel. rewrite S. reflexivity.
Qed.

Theorem diverge_iff_forever : forall c b, load_msh c b = Diverge <-> runs_forever c b.
Proof.
  intros c b. rewrite diverge_iff_stuck. split.
  - intros (p & (n & R) & S) m.
    destruct (Nat.le_ge_cases m n) as [L|L].
    + clear S. assert (Q : forall n p q, steps c n p q -> forall m, (m <= n)%nat -> exists r, steps c m p r).
      { clear. intros n p q H. induction H as [p|n p q r H1 H2 IH]; intros m L.
        - assert (m = O) by lia. subst. eexists. constructor.
        - destruct m as [|m]; [eexists; constructor|].
          destruct (IH m ltac:(lia)) as (r' & Hr). exists r'. econstructor; eauto. }
      eapply Q; eauto.
    + destruct (stuck_forever c (m - n) p S) as (q & H & _). exists q.
      replace m with (n + (m - n))%nat by lia. eapply steps_trans; eauto.
  - intro H.
    destruct (H (S (measure (start b)))) as (q & Hq).
    destruct (load_enough (S (S (List.length b))) c spec_default (opened b)) as [N|(p & n & S & R & _)].
    + cbn [opened IStream.rest]. lia.
    + exfalso.
      (* no stuck point is reachable, so runs are bounded *)
      assert (B : (S (measure (start b)) + measure q <= measure (start b))%nat); [|lia].
      apply (steps_no_stuck_bound c _ _ _ Hq). intros m r Hm S.
      apply (stuck_diverges c) in S. apply (diverges_reached c m _ _ Hm) in S.
      cbn [start diverges] in S. rewrite S in N. contradiction.
    + exists p. split; [exists n; exact R|exact S].
Qed.
