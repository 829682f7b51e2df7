(** What was loaded fits in the memory that it was loaded with. *)

From Verif Require Import Model.LoadMsh Spec.Files22 Spec.Resave Proofs.BytesP Proofs.RtStep Proofs.Hoare Proofs.TriP
  Proofs.ExtP Proofs.PostP Proofs.Load22P Proofs.File22P Proofs.LoadedP Proofs.Trace Proofs.ResaveP.

Ltac Zify.zify_post_hook ::= idtac.

Lemma fits_less : forall c sz n m, 0 < sz -> 0 <= m <= n -> fits c sz n -> fits c sz m.
Proof.
  intros c sz n m S [M0 M1] [F1 F2]. split; [lia|]. apply Z.le_trans with (n * sz); [|exact F2]. apply Z.mul_le_mono_nonneg_r; lia.
Qed.

Lemma post_resize : forall A c sz (d : A) n old (P : A -> Prop), 0 < sz -> fits c sz (zlen old) -> P d -> Forall P old ->
  post (lift (resize c sz d n old)) (fun l => fits c sz (zlen l) /\ Forall P l).
Proof.
  intros A c sz d n old P S F Pd Po. apply post_lift. intros l E. unfold resize in E.
  destruct (can_hold c sz n old) as [[]| | | |] eqn:EC; cbn [obind] in E; try discriminate. injection E as <-.
  apply can_hold_inv in EC. destruct EC as [C1 C2]. split.
  - set (l := firstn _ _ ++ _). assert (L : zlen l = Z.max 0 n).
    { unfold l, zlen. rewrite app_length, firstn_length, repeat_length. lia. }
    rewrite L. destruct (Z.le_gt_cases n (zlen old)) as [N|N].
    + apply (fits_less c sz (zlen old)); [exact S| |exact F]. pose proof (zlen_nonneg _ old). lia.
    + pose proof (zlen_nonneg _ old). rewrite Z.max_r by lia. split; [exact C1|]. destruct C2 as [C2|C2]; [lia|exact C2].
  - apply Forall_app. split; [|apply Forall_forall; intros x Hx; apply repeat_spec in Hx; subst; exact Pd].
    rewrite Forall_forall in *. intros x Hx. apply Po. rewrite <- (firstn_skipn (Z.to_nat n) old). apply in_or_app. left. exact Hx.
Qed.

Lemma post_resize1 : forall A c sz (d : A) n old, 0 < sz -> fits c sz (zlen old) ->
  post (lift (resize c sz d n old)) (fun l => fits c sz (zlen l)).
Proof.
  intros A c sz d n old S F. eapply post_weaken; [apply (post_resize A c sz d n old (fun _ => True) S F I)|intros l [H _]; exact H].
  apply Forall_forall. auto.
Qed.

Lemma post_map : forall A B (f : A -> M B) (O : A -> Prop) (P : B -> Prop) l, Forall O l -> (forall x, O x -> post (f x) P) ->
  post (mapM f l) (fun r => zlen r = zlen l /\ Forall P r).
Proof.
  intros A B f O P l HO H. induction HO as [|x l Hx HO IH]; cbn [mapM]; [apply post_ret; split; [reflexivity|constructor]|].
  eapply post_bind; [exact (H x Hx)|]. intros y Hy. eapply post_bind; [exact IH|]. intros r [R1 R2]. apply post_ret.
  split; [rewrite !zlen_cons, R1; reflexivity|constructor; assumption].
Qed.

Lemma post_map1 : forall A B (f : A -> M B) l, post (mapM f l) (fun r => zlen r = zlen l).
Proof.
  intros A B f l. eapply post_weaken; [apply (post_map A B f (fun _ => True) (fun _ => True) l)|intros r [H _]; exact H].
  - apply Forall_forall. auto.
  - intros. apply post_any.
Qed.

Lemma post_raw_array : forall f l, post (rd_raw_array f l) (fun r => zlen r = zlen l).
Proof. intros f l. unfold rd_raw_array. apply post_bind_any. intros _. apply post_map1. Qed.

Lemma post_raw_into : forall sz n f l, post (rd_raw_into sz n f l) (fun r => zlen r = zlen l).
Proof.
  intros sz n f l. unfold rd_raw_into. destruct (_ <? _); [apply post_undef|].
  eapply post_bind; [apply post_raw_array|]. intros r R. apply post_ret.
  rewrite zlen_app, R, <- zlen_app, firstn_skipn. reflexivity.
Qed.

Lemma post_fill : forall A n (f : A -> M A) l, post (fill n f l) (fun r => zlen r = zlen l).
Proof. intros A n f l. unfold fill. destruct (_ =? _); [apply post_map1|apply post_undef]. Qed.

Lemma post_fits : forall A B c sz (m : M (list A)) (l : list A) (k : list A -> M B) Q, post m (fun r => zlen r = zlen l) -> fits c sz (zlen l) ->
  (forall r, fits c sz (zlen r) -> post (k r) Q) -> post (bind m k) Q.
Proof. intros A B c sz m l k Q H F K. eapply post_bind; [exact H|]. intros r R. apply K. rewrite R. exact F. Qed.

Ltac pos := unfold sz_size, sz_double, sz_int, sz_string, sz_NodeBlock, sz_ElementBlock, sz_PointEntity, sz_Entity, sz_PhysicalGroup,
  sz_DataEntry, sz_Curve, sz_Patch; lia.

(** [in]: a resize followed by reading. *)
Ltac go := first
  [ eapply post_bind; [apply post_resize1; [pos|eassumption]|let l := fresh "l" in let F := fresh "F" in intros l F; cbv beta in F]
  | eapply post_fits; [first [apply post_map1|apply post_raw_array|apply post_raw_into|apply post_fill]|eassumption|intros ? ?]
  | apply post_bind_any; intro ].

Section Room.
Variable c : cfg.
Hypothesis HM : 0 <= mem c.

Lemma fits_0 : forall sz, 0 < sz -> fits c sz 0.
Proof. intros sz S. split; [apply Z.div_pos; [unfold PTRDIFF_MAX; lia|exact S]|lia]. Qed.

Definition room_nb (b : NodeBlock) : Prop := fits c sz_size (zlen (nb_tags b)) /\ fits c sz_double (zlen (nb_data b)).
Definition room_eb (b : ElementBlock) : Prop := fits c sz_size (zlen (eb_data b)).

Lemma nb_ascii_room : forall b, room_nb b -> post (v41_node_block_ascii c b) room_nb.
Proof. intros b [B1 B2]. unfold v41_node_block_ascii. repeat go. apply post_ret. split; assumption. Qed.
Lemma nb_binary_room : forall b, room_nb b -> post (v41_node_block_binary c b) room_nb.
Proof. intros b [B1 B2]. unfold v41_node_block_binary. repeat go. apply post_ret. split; assumption. Qed.
Lemma eb_ascii_room : forall b, room_eb b -> post (v41_element_block_ascii c b) room_eb.
Proof. intros b B1. unfold room_eb in B1. unfold v41_element_block_ascii. repeat go. apply post_ret. assumption. Qed.
Lemma eb_binary_room : forall b, room_eb b -> post (v41_element_block_binary c b) room_eb.
Proof. intros b B1. unfold room_eb in B1. unfold v41_element_block_binary. repeat go. apply post_ret. assumption. Qed.

Lemma nodes_41_room : forall (ascii : bool) n, fits c sz_NodeBlock (zlen (n_blocks n)) -> Forall room_nb (n_blocks n) ->
  post (if ascii then v41_load_nodes_ascii c n else v41_load_nodes_binary c n)
    (fun n' => fits c sz_NodeBlock (zlen (n_blocks n')) /\ Forall room_nb (n_blocks n')).
Proof.
  intros ascii n F B. assert (D : room_nb nb_default) by (split; apply fits_0; pos).
  destruct ascii; [unfold v41_load_nodes_ascii|unfold v41_load_nodes_binary];
  repeat (match goal with |- post (bind (op _) _) _ => apply post_bind_any; intro | |- post (bind (assert_good _) _) _ => apply post_bind_any; intro end).
  - eapply post_bind; [apply (post_resize _ c sz_NodeBlock nb_default _ _ room_nb); [pos|exact F|exact D|exact B]|]. intros l [L1 L2].
    eapply post_bind; [apply (post_map _ _ _ room_nb room_nb l L2 nb_ascii_room)|]. intros r [R1 R2]. apply post_ret. cbn. rewrite R1. auto.
  - eapply post_bind; [apply (post_resize _ c sz_NodeBlock nb_default _ _ room_nb); [pos|exact F|exact D|exact B]|]. intros l [L1 L2].
    eapply post_bind; [apply (post_map _ _ _ room_nb room_nb l L2 nb_binary_room)|]. intros r [R1 R2]. apply post_ret. cbn. rewrite R1. auto.
Qed.

Lemma elements_41_room : forall (ascii : bool) n, fits c sz_ElementBlock (zlen (e_blocks n)) -> Forall room_eb (e_blocks n) ->
  post (if ascii then v41_load_elements_ascii c n else v41_load_elements_binary c n)
    (fun n' => fits c sz_ElementBlock (zlen (e_blocks n')) /\ Forall room_eb (e_blocks n')).
Proof.
  intros ascii n F B. assert (D : room_eb eb_default) by (apply fits_0; pos).
  destruct ascii; [unfold v41_load_elements_ascii|unfold v41_load_elements_binary];
  repeat (match goal with |- post (bind (op _) _) _ => apply post_bind_any; intro | |- post (bind (assert_good _) _) _ => apply post_bind_any; intro end).
  - eapply post_bind; [apply (post_resize _ c sz_ElementBlock eb_default _ _ room_eb); [pos|exact F|exact D|exact B]|]. intros l [L1 L2].
    eapply post_bind; [apply (post_map _ _ _ room_eb room_eb l L2 eb_ascii_room)|]. intros r [R1 R2]. apply post_ret. cbn. rewrite R1. auto.
  - eapply post_bind; [apply (post_resize _ c sz_ElementBlock eb_default _ _ room_eb); [pos|exact F|exact D|exact B]|]. intros l [L1 L2].
    eapply post_bind; [apply (post_map _ _ _ room_eb room_eb l L2 eb_binary_room)|]. intros r [R1 R2]. apply post_ret. cbn. rewrite R1. auto.
Qed.

(** ** Entities *)

Lemma ints_ascii_room : forall old, fits c sz_int (zlen old) -> post (ints_ascii c old) (fun l => fits c sz_int (zlen l)).
Proof.
  intros old F. unfold ints_ascii. apply post_bind_any. intro. apply post_bind_any. intro.
  go. eapply post_weaken; [apply post_map1|]. cbv beta. intros r ->. assumption.
Qed.
Lemma ints_binary_room : forall old, fits c sz_int (zlen old) -> post (ints_binary c old) (fun l => fits c sz_int (zlen l)).
Proof. intros old F. unfold ints_binary. repeat go. apply post_ret. assumption. Qed.

Lemma point_room : forall (ascii : bool) p, roomy_point c p -> post (if ascii then point_ascii c p else point_binary c p) (roomy_point c).
Proof.
  intros ascii p H. unfold roomy_point in H. destruct ascii; [unfold point_ascii|unfold point_binary];
  repeat (match goal with |- post (bind (op _) _) _ => apply post_bind_any; intro end).
  - eapply post_bind; [apply ints_ascii_room; exact H|]. intros l L. apply post_ret. exact L.
  - eapply post_bind; [apply ints_binary_room; exact H|]. intros l L. apply post_ret. exact L.
Qed.

Lemma entity_room : forall (ascii : bool) e, roomy_entity c e -> post (if ascii then entity_ascii c e else entity_binary c e) (roomy_entity c).
Proof.
  intros ascii p [H K]. destruct ascii; [unfold entity_ascii|unfold entity_binary];
  repeat (match goal with |- post (bind (op _) _) _ => apply post_bind_any; intro end).
  - eapply post_bind; [apply ints_ascii_room; exact H|]. intros l L.
    eapply post_bind; [apply ints_ascii_room; exact K|]. intros l' L'. apply post_ret. split; assumption.
  - eapply post_bind; [apply ints_binary_room; exact H|]. intros l L.
    eapply post_bind; [apply ints_binary_room; exact K|]. intros l' L'. apply post_ret. split; assumption.
Qed.

Record room_entities (en : Entities) : Prop := {
  ren_points : fits c sz_PointEntity (zlen (points en)) /\ Forall (roomy_point c) (points en);
  ren_curves : fits c sz_Entity (zlen (curves_e en)) /\ Forall (roomy_entity c) (curves_e en);
  ren_surfaces : fits c sz_Entity (zlen (surfaces_e en)) /\ Forall (roomy_entity c) (surfaces_e en);
  ren_volumes : fits c sz_Entity (zlen (volumes_e en)) /\ Forall (roomy_entity c) (volumes_e en) }.

Lemma resize_entities_room : forall np nc ns nv en, room_entities en -> post (resize_entities c np nc ns nv en) room_entities.
Proof.
  intros np nc ns nv en [[P1 P2] [C1 C2] [S1 S2] [V1 V2]]. unfold resize_entities.
  assert (DP : roomy_point c pe_default) by (apply fits_0; pos).
  assert (DE : roomy_entity c en_default) by (split; apply fits_0; pos).
  apply post_bind_any. intro. eapply post_bind; [apply (post_resize _ c sz_PointEntity pe_default _ _ (roomy_point c)); [pos|exact P1|exact DP|exact P2]|]. intros l1 [L1 M1].
  apply post_bind_any. intro. eapply post_bind; [apply (post_resize _ c sz_Entity en_default _ _ (roomy_entity c)); [pos|exact C1|exact DE|exact C2]|]. intros l2 [L2 M2].
  apply post_bind_any. intro. eapply post_bind; [apply (post_resize _ c sz_Entity en_default _ _ (roomy_entity c)); [pos|exact S1|exact DE|exact S2]|]. intros l3 [L3 M3].
  apply post_bind_any. intro. eapply post_bind; [apply (post_resize _ c sz_Entity en_default _ _ (roomy_entity c)); [pos|exact V1|exact DE|exact V2]|]. intros l4 [L4 M4].
  apply post_ret. split; cbn; auto.
Qed.

Lemma entities_room : forall (ascii : bool) en, room_entities en ->
  post (if ascii then v41_load_entities_ascii c en else v41_load_entities_binary c en) room_entities.
Proof.
  intros ascii en H. destruct ascii; [unfold v41_load_entities_ascii|unfold v41_load_entities_binary];
  repeat (match goal with |- post (bind (op _) _) _ => apply post_bind_any; intro | |- post (bind (assert_good _) _) _ => apply post_bind_any; intro end);
  (eapply post_bind; [apply resize_entities_room; exact H|]); intros e0 [[P1 P2] [C1 C2] [S1 S2] [V1 V2]].
  - eapply post_bind; [apply (post_map _ _ _ _ (roomy_point c) _ P2 (point_room true))|]. intros l1 [L1 M1].
    eapply post_bind; [apply (post_map _ _ _ _ (roomy_entity c) _ C2 (entity_room true))|]. intros l2 [L2 M2].
    eapply post_bind; [apply (post_map _ _ _ _ (roomy_entity c) _ S2 (entity_room true))|]. intros l3 [L3 M3].
    eapply post_bind; [apply (post_map _ _ _ _ (roomy_entity c) _ V2 (entity_room true))|]. intros l4 [L4 M4].
    apply post_bind_any. intro. apply post_ret. split; cbn; [rewrite L1|rewrite L2|rewrite L3|rewrite L4]; auto.
  - eapply post_bind; [apply (post_map _ _ _ _ (roomy_point c) _ P2 (point_room false))|]. intros l1 [L1 M1].
    eapply post_bind; [apply (post_map _ _ _ _ (roomy_entity c) _ C2 (entity_room false))|]. intros l2 [L2 M2].
    eapply post_bind; [apply (post_map _ _ _ _ (roomy_entity c) _ S2 (entity_room false))|]. intros l3 [L3 M3].
    eapply post_bind; [apply (post_map _ _ _ _ (roomy_entity c) _ V2 (entity_room false))|]. intros l4 [L4 M4].
    apply post_ret. split; cbn; [rewrite L1|rewrite L2|rewrite L3|rewrite L4]; auto.
Qed.

Lemma groups_room : forall spec, fits c sz_PhysicalGroup (zlen (physical_groups spec)) ->
  post (load_physical_groups c spec) (fun sp => exists gs, sp = set_physical_groups gs spec /\ fits c sz_PhysicalGroup (zlen gs)).
Proof. intros spec F. unfold load_physical_groups. repeat go. apply post_ret. eauto. Qed.

(** ** Data *)

Definition room_entry (e : DataEntry) : Prop := fits c sz_double (zlen (de_data e)).

Lemma entry_ascii_room : forall fields end_ e, room_entry e -> post (entry_ascii c fields end_ e) room_entry.
Proof.
  intros fields end_ e H. unfold room_entry in H. unfold entry_ascii. apply post_bind_any. intro. destruct end_; repeat go; apply post_ret; assumption.
Qed.
Lemma entry_binary_room : forall is22 fields end_ e, room_entry e -> post (entry_binary c is22 fields end_ e) room_entry.
Proof. intros is22 fields end_ e H. unfold room_entry in H. unfold entry_binary. repeat go. apply post_ret. assumption. Qed.

Definition room_header (h : DataHeader) : Prop := fits c sz_string (zlen (string_tags h)) /\ fits c sz_double (zlen (real_tags h)) /\ fits c sz_int (zlen (int_tags h)).

Lemma header_room : post (load_data_header c) room_header.
Proof.
  assert (F1 : fits c sz_string (zlen (@nil bytes))) by (apply fits_0; pos).
  assert (F2 : fits c sz_double (zlen (@nil dbl))) by (apply fits_0; pos).
  assert (F3 : fits c sz_int (zlen (@nil Z))) by (apply fits_0; pos).
  unfold load_data_header. repeat go. apply post_ret. split; [|split]; assumption.
Qed.

Lemma data_room : forall v bin end_, post (load_data c v bin end_) (roomy_data c).
Proof.
  intros v bin end_. unfold load_data. eapply post_bind; [exact header_room|]. intros h (H1 & H2 & H3).
  destruct (int_tags h) as [|i0 [|i1 [|i2 more]]] eqn:EI; try apply post_throw. cbv zeta.
  eapply post_bind; [apply (post_resize _ c sz_DataEntry de_default _ [] room_entry); [pos|apply fits_0; pos|apply fits_0; pos|constructor]|].
  intros l [L1 L2]. apply (post_bind _ _ _ _ (fun r => zlen r = zlen l /\ Forall room_entry r)).
  { destruct bin.
    - apply post_bind_any. intro. destruct (bytes_eqb v v41s); [|destruct (bytes_eqb v v22s); [|apply post_throw]];
        (apply (post_map _ _ _ _ room_entry l L2); intros; apply entry_binary_room; assumption).
    - apply (post_map _ _ _ _ room_entry l L2); intros; apply entry_ascii_room; assumption. }
  intros r [R1 R2]. apply post_bind_any. intro. apply post_ret. split; [exact H1|]. split; [exact H2|].
  split; [cbn [d_header]; rewrite EI; exact H3|]. split; [cbn [d_entries]; rewrite R1; exact L1|exact R2].
Qed.

(** ** Splines *)

Definition room_curve (k : Curve) : Prop := fits c sz_double (zlen (cv_data k)).
Definition room_patch (k : Patch) : Prop := fits c sz_double (zlen (pt_data k)).

Lemma curve_room : forall ascii k, room_curve k -> post (load_curve c ascii k) room_curve.
Proof.
  intros ascii k H. unfold room_curve in H. unfold load_curve.
  repeat (match goal with |- post (bind (op _) _) _ => apply post_bind_any; intro end). apply post_bind_any. intro. go.
  eapply post_fits; [destruct ascii; [apply post_map1|apply post_raw_array]|eassumption|]. intros r R. apply post_ret. exact R.
Qed.
Lemma patch_room : forall ascii k, room_patch k -> post (load_patch c ascii k) room_patch.
Proof.
  intros ascii k H. unfold room_patch in H. unfold load_patch.
  repeat (match goal with |- post (bind (op _) _) _ => apply post_bind_any; intro end). go.
  eapply post_fits; [destruct ascii; [apply post_map1|apply post_bind_any; intro; apply post_raw_array]|eassumption|]. intros r R. apply post_ret. exact R.
Qed.

Lemma curves_room : forall spec, fits c sz_Curve (zlen (curves spec)) -> Forall room_curve (curves spec) ->
  post (load_curves c spec) (fun sp => exists l, sp = set_curves l spec /\ fits c sz_Curve (zlen l) /\ Forall room_curve l).
Proof.
  intros spec F H. unfold load_curves. destruct (nanospline c).
  2: { apply post_ret. exists (curves spec). split; [destruct spec; reflexivity|auto]. }
  apply post_bind_any. intro. apply post_bind_any. intro.
  eapply post_bind; [apply (post_resize _ c sz_Curve cv_default _ _ room_curve); [pos|exact F|apply fits_0; pos|exact H]|]. intros l [L1 L2].
  eapply post_bind; [apply (post_map _ _ _ _ room_curve l L2); apply curve_room|]. intros r [R1 R2]. apply post_ret. exists r. rewrite R1. auto.
Qed.
Lemma patches_room : forall spec, fits c sz_Patch (zlen (patches spec)) -> Forall room_patch (patches spec) ->
  post (load_patches c spec) (fun sp => exists l, sp = set_patches l spec /\ fits c sz_Patch (zlen l) /\ Forall room_patch l).
Proof.
  intros spec F H. unfold load_patches. destruct (nanospline c).
  2: { apply post_ret. exists (patches spec). split; [destruct spec; reflexivity|auto]. }
  apply post_bind_any. intro. apply post_bind_any. intro.
  eapply post_bind; [apply (post_resize _ c sz_Patch pt_default _ _ room_patch); [pos|exact F|apply fits_0; pos|exact H]|]. intros l [L1 L2].
  eapply post_bind; [apply (post_map _ _ _ _ room_patch l L2); apply patch_room|]. intros r [R1 R2]. apply post_ret. exists r. rewrite R1. auto.
Qed.

(** ** The loop *)

Lemma roomy_default : roomy c spec_default.
Proof.
  split; cbn; try constructor; try constructor; try (apply fits_0; pos).
Qed.

Lemma dispatch_roomy : forall name spec, (name = str "$Nodes" \/ name = str "$Elements" -> version (mesh_format spec) = str "4.1") ->
  roomy c spec -> post (dispatch c name spec) (roomy c).
Proof.
  intros name spec HV HR. pose proof HR as [N1 N2 E1 E2 P C S V G D [K K'] [T T']].
  assert (EN : room_entities (entities spec)) by (split; assumption).
  apply Forall_app in D. destruct D as [D1 D]. apply Forall_app in D. destruct D as [D2 D3].
  unfold dispatch.
  destruct (bytes_eqb name (str "$MeshFormat")).
  { unfold load_mesh_format. cbv zeta. post_frame ltac:(destruct HR; split; assumption). }
  destruct (bytes_eqb name (str "$Entities")).
  { unfold load_entities. cbv zeta. destruct (bytes_eqb _ v41s).
    - eapply post_bind; [apply entities_room; exact EN|]. intros en [A1 A2 A3 A4]. apply post_ret. destruct HR. split; assumption.
    - destruct (bytes_eqb _ v22s); [apply post_throw|apply post_ret; exact HR]. }
  destruct (bytes_eqb name (str "$PhysicalNames")).
  { eapply post_weaken; [apply groups_room; exact G|]. intros sp (gs & -> & F). destruct HR. split; assumption. }
  destruct (bytes_eqb name (str "$Nodes")) eqn:Q.
  { apply bytes_eqb_eq in Q. specialize (HV (or_introl Q)). unfold load_nodes. cbv zeta. rewrite HV.
    change (bytes_eqb (str "4.1") v41s) with true. cbv iota. fold (prior_nodes (nodes spec)).
    assert (B : n_blocks (prior_nodes (nodes spec)) = n_blocks (nodes spec)) by (unfold prior_nodes; destruct (n_blocks (nodes spec)) eqn:X; cbn; auto).
    eapply post_bind; [apply nodes_41_room; rewrite B; assumption|]. intros n' [A1 A2]. apply post_ret. destruct HR. split; assumption. }
  destruct (bytes_eqb name (str "$Elements")) eqn:Q'.
  { apply bytes_eqb_eq in Q'. specialize (HV (or_intror Q')). unfold load_elements. cbv zeta. rewrite HV.
    change (bytes_eqb (str "4.1") v41s) with true. cbv iota. fold (prior_elements (elements spec)).
    assert (B : e_blocks (prior_elements (elements spec)) = e_blocks (elements spec)) by (unfold prior_elements; destruct (e_blocks (elements spec)) eqn:X; cbn; auto).
    eapply post_bind; [apply elements_41_room; rewrite B; assumption|]. intros n' [A1 A2]. apply post_ret. destruct HR. split; assumption. }
  destruct (bytes_eqb name (str "$NodeData")).
  { unfold load_node_data. eapply post_bind; [apply data_room|]. intros d Hd. apply post_ret. destruct HR. split; try assumption.
    cbn [node_data element_data element_node_data set_node_data]. rewrite !Forall_app. repeat split; auto. }
  destruct (bytes_eqb name (str "$ElementData")).
  { unfold load_element_data. eapply post_bind; [apply data_room|]. intros d Hd. apply post_ret. destruct HR. split; try assumption.
    cbn [node_data element_data element_node_data set_element_data]. rewrite !Forall_app. repeat split; auto. }
  destruct (bytes_eqb name (str "$ElementNodeData")).
  { unfold load_element_node_data. eapply post_bind; [apply data_room|]. intros d Hd. apply post_ret. destruct HR. split; try assumption.
    cbn [node_data element_data element_node_data set_element_node_data]. rewrite !Forall_app. repeat split; auto. }
  destruct (bytes_eqb name (str "$NanoSplineFormat")).
  { unfold load_nanospline_format. post_frame ltac:(destruct HR; split; assumption). }
  destruct (bytes_eqb name (str "$Curves")).
  { eapply post_weaken; [apply curves_room; [exact K|exact K']|]. intros sp (l & -> & F1 & F2). destruct HR. split; try assumption. split; assumption. }
  destruct (bytes_eqb name (str "$Patches")).
  { eapply post_weaken; [apply patches_room; [exact T|exact T']|]. intros sp (l & -> & F1 & F2). destruct HR. split; try assumption. split; assumption. }
  apply post_ret. exact HR.
Qed.

Theorem loaded_roomy : forall b s, load_msh c b = Ok s -> sections_41 c b -> version (mesh_format s) = str "4.1" -> roomy c s.
Proof.
  intros b s HL H4 V. destruct (load_ends c b s HL) as (raw & HE & HP).
  destruct (post_data c raw s HP) as (_ & _ & _ & EF).
  unfold post_process in HP. destruct (bytes_eqb (version (mesh_format raw)) v22s) eqn:E.
  { exfalso. apply bytes_eqb_eq in E. rewrite EF, E in V. discriminate V. }
  injection HP as <-. destruct HE as (s0 & R & _). refine (reached_inv c b (roomy c) roomy_default _ _ R).
  intros name spec s1 spec' s' HM0 _ HI ED. exact (dispatch_roomy name spec (H4 name spec s1 HM0) HI _ _ _ ED).
Qed.
End Room.

Lemma fits_more : forall c c' sz n, mem c <= mem c' -> fits c sz n -> fits c' sz n.
Proof. intros c c' sz n H [F1 F2]. split; lia. Qed.

Lemma roomy_more : forall c c' s, mem c <= mem c' -> roomy c s -> roomy c' s.
Proof.
  intros c c' s H [N1 N2 E1 E2 P C S V G D K T].
  assert (M : forall sz n, fits c sz n -> fits c' sz n) by (intros; eapply fits_more; eassumption).
  assert (MP : forall p, roomy_point c p -> roomy_point c' p) by (unfold roomy_point; auto).
  assert (ME : forall p, roomy_entity c p -> roomy_entity c' p) by (unfold roomy_entity; intuition).
  assert (MD : forall d, roomy_data c d -> roomy_data c' d).
  { intros d (A1 & A2 & A3 & A4 & A5). repeat split; try (apply M; assumption); try apply A3; try apply A4.
    eapply Forall_impl; [|exact A5]. cbv beta. auto. }
  split; auto.
  - eapply Forall_impl; [|exact N2]. cbv beta. intuition.
  - eapply Forall_impl; [|exact E2]. cbv beta. intuition.
  - destruct P. split; auto. eapply Forall_impl; eassumption.
  - destruct C. split; auto. eapply Forall_impl; eassumption.
  - destruct S. split; auto. eapply Forall_impl; eassumption.
  - destruct V. split; auto. eapply Forall_impl; eassumption.
  - eapply Forall_impl; eassumption.
  - destruct K. split; auto. eapply Forall_impl; [|eassumption]. cbv beta. auto.
  - destruct T. split; auto. eapply Forall_impl; [|eassumption]. cbv beta. auto.
Qed.

Definition is_41 (name : bytes) (spec : MshSpec) : bool :=
  negb (bytes_eqb name (str "$Nodes") || bytes_eqb name (str "$Elements")) ||
  bytes_eqb (version (mesh_format spec)) (str "4.1").

Lemma trace_41 : forall c b f r, trace is_41 c f spec_default (opened b) = Some r -> sections_41 c b.
Proof.
  intros c b f r H name spec s HM HN. pose proof (trace_meets is_41 c b f r H name spec s HM) as K. unfold is_41 in K.
  apply orb_true_iff in K. destruct K as [K|K]; [|apply bytes_eqb_eq; exact K].
  apply negb_true_iff, orb_false_iff in K. destruct K as [K1 K2]. apply bytes_eqb_neq in K1, K2.
  destruct HN; contradiction.
Qed.
