(** Whole 2.2 files, whatever the bytes. *)

From Verif Require Import Model.LoadMsh Spec.Files22 Proofs.BytesP Proofs.Fuel Proofs.Reach Proofs.Hoare
  Proofs.ExtP Proofs.SkipP Proofs.RtStep Proofs.ElemP Proofs.TriP Proofs.PostP Proofs.Load22P.

Ltac Zify.zify_post_hook ::= idtac.

(** ** Invariants of the section loop, with the sections met *)

Definition spec_of (p : point) : MshSpec := match p with Main s _ => s | Fwd _ _ s _ => s end.

Lemma reached_inv : forall c b (I : MshSpec -> Prop), I spec_default ->
  (forall name spec s spec' s', meets c b name spec s -> is_section name = true -> I spec ->
     dispatch c name spec s = Ok (spec', s') -> I spec') ->
  forall p, reached c b p -> I (spec_of p).
Proof.
  intros c b I H0 HD.
  assert (G : forall n p q, steps c n p q -> reached c b p -> I (spec_of p) -> I (spec_of q)).
  { intros n p q H. induction H as [p|n p q r HS H IH]; intros R Hp; [exact Hp|].
    apply IH; [exact (reached_step _ _ _ _ R HS)|].
    destruct HS as [spec s buf s1 E0 ET IS|spec s buf s1 spec' s2 E0 ET IS ED
                |flag buf spec s buf' s' E0 NE ET|flag buf spec s C]; cbn [spec_of] in *; try exact Hp.
    apply (HD buf spec s1 spec' s2); try assumption. exists s. auto. }
  intros p (n & R). apply (G n _ _ R); [exists O; constructor|exact H0].
Qed.

Lemma forward_steps : forall c spec f flag buf s s', forward_loop f flag buf s = Ok (tt, s') ->
  exists n, steps c n (Fwd flag buf spec s) (Main spec s').
Proof.
  intros c spec f. induction f as [|f IH]; intros flag buf s s' E; cbn [forward_loop] in E; [discriminate|].
  destruct (eofb s || bytes_eqb buf flag) eqn:EB.
  - injection E as <-. exists 1%nat. econstructor; [|constructor]. apply step_found.
    apply orb_true_iff in EB. destruct EB as [EB|EB]; [left; exact EB|right; apply bytes_eqb_eq; exact EB].
  - apply orb_false_iff in EB. destruct EB as [E1 E2]. destruct (rd_token buf s) as [buf' s1] eqn:ET.
    destruct (IH _ _ _ _ E) as (n & H). exists (S n). econstructor; [|exact H].
    apply step_skip; [exact E1| |exact ET]. apply bytes_eqb_neq. exact E2.
Qed.

Lemma steps_app : forall c n p q, steps c n p q -> forall m r, steps c m q r -> exists k, steps c k p r.
Proof.
  intros c n p q H. induction H as [p|n p q r HS H IH]; intros m r' H2; [eauto|].
  destruct (IH m r' H2) as (k & K). exists (S k). econstructor; eauto.
Qed.

Lemma loop_steps : forall c f spec s r s', load_loop f c spec s = Ok (r, s') ->
  exists n, steps c n (Main spec s) (Main r s') /\ eofb s' = true.
Proof.
  intros c f. induction f as [|f IH]; intros spec s r s' E; cbn [load_loop] in E; [discriminate|].
  destruct (eofb s) eqn:EE.
  { injection E as <- <-. exists O. split; [constructor|exact EE]. }
  destruct (load_step c spec s) as [[sp s1]| | | |] eqn:ES; try discriminate. cbn [obind fst snd] in E.
  destruct (IH _ _ _ _ E) as (n & H & H2). unfold load_step in ES.
  destruct (rd_token [] s) as [buf s2] eqn:ET. destruct (is_section buf) eqn:IS; cbn [negb] in ES.
  - unfold bind in ES. destruct (dispatch c buf spec s2) as [[sp2 s3]| | | |] eqn:ED; try discriminate.
    destruct (forward_to (end_marker buf) s3) as [[[] s4]| | | |] eqn:EF; try discriminate.
    injection ES as <- <-. unfold forward_to in EF. destruct (forward_steps c sp2 _ _ _ _ _ EF) as (m & HF).
    destruct (steps_app c _ _ _ HF _ _ H) as (k & K). exists (S k). split; [|exact H2].
    econstructor; [|exact K]. eapply step_section; eassumption.
  - injection ES as <- <-. exists (S n). split; [|exact H2]. econstructor; [|exact H].
    eapply step_word; eassumption.
Qed.

Lemma ends_load : forall c b raw, ends_with c b raw -> load_msh c b = post_process c raw.
Proof.
  intros c b raw (s & R & E). rewrite (reached_result c b _ (Ok (raw, s)) R); [reflexivity|].
  split; [discriminate|]. exists 1%nat. cbn [run load_loop]. rewrite E. reflexivity.
Qed.

Lemma load_ends : forall c b s, load_msh c b = Ok s -> exists raw, ends_with c b raw /\ post_process c raw = Ok s.
Proof.
  intros c b s E. unfold load_msh, load_msh_fuel in E.
  destruct (load_loop _ c spec_default (opened b)) as [[raw s1]| | | |] eqn:EL; try discriminate.
  cbn [obind fst] in E. exists raw. split; [|exact E]. destruct (loop_steps _ _ _ _ _ _ EL) as (n & H & H2).
  exists s1. split; [exists n; exact H|exact H2].
Qed.

(** ** Mesh sections *)

Lemma dispatch_frame : forall c name spec, name <> str "$Nodes" -> name <> str "$Elements" ->
  post (dispatch c name spec) (fun sp => nodes sp = nodes spec /\ elements sp = elements spec).
Proof.
  intros c name spec N1 N2. apply bytes_eqb_neq in N1, N2. unfold dispatch. rewrite N1, N2.
  assert (T : nodes spec = nodes spec /\ elements spec = elements spec) by (split; reflexivity).
  unfold load_mesh_format, load_entities, load_physical_groups,
    load_node_data, load_element_data, load_element_node_data,
    load_nanospline_format, load_curves, load_patches.
  post_frame ltac:(exact T).
Qed.

Lemma load_nodes_22 : forall (U : ub -> Prop) c spec, U Indeterminate -> version (mesh_format spec) = str "2.2" ->
  tri (load_nodes c spec) (fun sp => exists n' rows, sp = set_nodes n' spec /\
     nodes_appended (prior_nodes (nodes spec)) n' rows) U.
Proof.
  intros U c spec HU Hv. unfold load_nodes. rewrite Hv. change (bytes_eqb (str "2.2") v41s) with false.
  change (bytes_eqb (str "2.2") v22s) with true. cbv iota. fold (prior_nodes (nodes spec)).
  eapply tri_bind.
  - destruct (file_type (mesh_format spec) =? 0);
      [apply v22_load_nodes_ascii_tri|apply v22_load_nodes_binary_tri; exact HU].
  - intros n' (rows & H). apply tri_ret. exists n', rows. auto.
Qed.

Lemma load_elements_22 : forall (U : ub -> Prop) c spec, U Indeterminate -> U SignedOverflow ->
  version (mesh_format spec) = str "2.2" -> size_ok (e_num_elements (elements spec)) ->
  tri (load_elements c spec) (fun sp => exists p, sp = set_entities (snd p) (set_elements (fst p) spec) /\
     elements_post c (prior_elements (elements spec)) (entities spec) (file_type (mesh_format spec) =? 0) p) U.
Proof.
  intros U c spec HU HS Hv H0. unfold load_elements. rewrite Hv. change (bytes_eqb (str "2.2") v41s) with false.
  change (bytes_eqb (str "2.2") v22s) with true. cbv iota. fold (prior_elements (elements spec)).
  apply (tri_bind _ _ _ _ _ (elements_post c (prior_elements (elements spec)) (entities spec) (file_type (mesh_format spec) =? 0))).
  - destruct (file_type (mesh_format spec) =? 0).
    + apply v22_load_elements_ascii_tri. exact HU.
    + apply v22_load_elements_binary_tri; try assumption.
      unfold prior_elements. destruct (e_blocks (elements spec)); exact H0.
  - intros p H. apply tri_ret. exists p. auto.
Qed.

(** ** The invariant *)

Record inv22 (c : cfg) (s : MshSpec) : Prop := {
  iv_node_num : n_num_blocks (nodes s) = zlen (n_blocks (nodes s));
  iv_node_fits : zlen (n_blocks (nodes s)) <= PTRDIFF_MAX / 72;
  iv_nodes : Forall node_block_22 (n_blocks (nodes s));
  iv_nodes_size : Forall (fun b => zlen (nb_data b) <= PTRDIFF_MAX / 8) (n_blocks (nodes s));
  iv_num_nodes : n_num_nodes (nodes s) = to_size (zlen (mesh_nodes (nodes s)));
  iv_bounds : tag_bounds (nodes s);
  iv_element_num : e_num_blocks (elements s) = zlen (e_blocks (elements s));
  iv_elements : Forall element_block_22 (e_blocks (elements s));
  iv_one : Forall (fun b => eb_num b = 1) (e_blocks (elements s));
  iv_num_elements : size_ok (e_num_elements (elements s));
  iv_element_fits : e_blocks (elements s) = [] \/ fits c sz_ElementBlock (zlen (e_blocks (elements s))) }.

Lemma inv22_default : forall c, inv22 c spec_default.
Proof.
  intro c. split; cbn [spec_default nodes elements n_default e_default n_num_blocks n_blocks n_num_nodes
    e_num_blocks e_blocks e_num_elements];
    [reflexivity| |constructor|constructor|reflexivity| |reflexivity|constructor|constructor| |left; reflexivity].
  - rewrite PD72. rewrite zlen_nil. lia.
  - left. split; [|split]; reflexivity.
  - unfold size_ok, two64. lia.
Qed.

Lemma least_app : forall i l1 l2 m m', least i l1 m -> least m l2 m' -> least i (l1 ++ l2) m'.
Proof.
  intros i l1 l2 m m' (A1 & A2 & A3) (B1 & B2 & B3). split; [|split; [lia|]].
  - destruct B1 as [->|B1]; [|right; apply in_or_app; right; exact B1].
    destruct A1 as [A1|A1]; [left; exact A1|right; apply in_or_app; left; exact A1].
  - apply Forall_app. split; [|exact B3]. eapply Forall_impl; [|exact A3]. cbn beta. intros; lia.
Qed.

Lemma greatest_app : forall i l1 l2 m m', greatest i l1 m -> greatest m l2 m' -> greatest i (l1 ++ l2) m'.
Proof.
  intros i l1 l2 m m' (A1 & A2 & A3) (B1 & B2 & B3). split; [|split; [lia|]].
  - destruct B1 as [->|B1]; [|right; apply in_or_app; right; exact B1].
    destruct A1 as [A1|A1]; [left; exact A1|right; apply in_or_app; left; exact A1].
  - apply Forall_app. split; [|exact B3]. eapply Forall_impl; [|exact A3]. cbn beta. intros; lia.
Qed.

Lemma mesh_nodes_snoc : forall n n' b, n_blocks n' = n_blocks n ++ [b] ->
  mesh_nodes n' = mesh_nodes n ++ block_nodes b.
Proof. intros n n' b E. unfold mesh_nodes. rewrite E, flat_map_app. cbn [flat_map]. rewrite app_nil_r. reflexivity. Qed.

Lemma prior_blocks : forall n, n_blocks (prior_nodes n) = n_blocks n /\ n_num_blocks (prior_nodes n) = n_num_blocks n.
Proof. intro n. unfold prior_nodes. destruct (n_blocks n) eqn:E; [auto|]. rewrite E. auto. Qed.

Lemma prior_eblocks : forall e, e_blocks (prior_elements e) = e_blocks e /\ e_num_blocks (prior_elements e) = e_num_blocks e /\
  e_num_elements (prior_elements e) = e_num_elements e.
Proof. intro n. unfold prior_elements. destruct (e_blocks n) eqn:E; [auto|]. rewrite E. auto. Qed.

Lemma inv22_nodes : forall c s n' rows, inv22 c s -> nodes_appended (prior_nodes (nodes s)) n' rows ->
  inv22 c (set_nodes n' s).
Proof.
  intros c s n' rows [I1 I2 I3 I4 I5 I6 I7 I8 I9 I10 I11] [(b & A1 & A2 & A3 & A4 & A5 & A6) B1 B2 B3 B4 B5].
  destruct (prior_blocks (nodes s)) as [P1 P2]. rewrite P1 in A1. rewrite P2 in B1.
  assert (MN : mesh_nodes n' = mesh_nodes (nodes s) ++ rows).
  { rewrite (mesh_nodes_snoc _ _ _ A1), A5. reflexivity. }
  change sz_NodeBlock with 72 in B5. change sz_double with 8 in A6.
  split; cbn [set_nodes nodes elements]; try assumption.
  - rewrite B1, I1, A1, zlen_app. change (zlen [b]) with 1. apply to_size_id.
    rewrite A1, zlen_app in B5. change (zlen [b]) with 1 in B5. rewrite PD72 in B5.
    pose proof (zlen_nonneg _ (n_blocks (nodes s))). unfold two64. lia.
  - rewrite A1. apply Forall_app. split; [exact I3|]. constructor; [exact A2|constructor].
  - rewrite A1. apply Forall_app. split; [exact I4|]. constructor; [exact A6|constructor].
  - rewrite B2, MN, zlen_app. unfold prior_nodes. destruct (n_blocks (nodes s)) eqn:E.
    + cbn [n_num_nodes]. unfold mesh_nodes at 1. rewrite E. cbn [flat_map]. rewrite zlen_nil. reflexivity.
    + rewrite I5. unfold to_size. rewrite Zplus_mod_idemp_l. reflexivity.
  - right. split; [rewrite A1; destruct (n_blocks (nodes s)); discriminate|]. rewrite MN, map_app.
    unfold prior_nodes in B3, B4. destruct (n_blocks (nodes s)) eqn:E.
    + cbn [n_min n_max] in B3, B4. unfold mesh_nodes. rewrite E. cbn [flat_map map app]. split; assumption.
    + destruct I6 as [(X & _)|(_ & L & G)]; [congruence|].
      split; [eapply least_app; eassumption|eapply greatest_app; eassumption].
Qed.

Lemma inv22_elements : forall c s p, inv22 c s ->
  elements_post c (prior_elements (elements s)) (entities s) (file_type (mesh_format s) =? 0) p ->
  inv22 c (set_entities (snd p) (set_elements (fst p) s)).
Proof.
  intros c s p [I1 I2 I3 I4 I5 I6 I7 I8 I9 I10 I11] (recs & [A1 (bs & A2 & A3 & A4 & A5 & A6) A7] & HN & _).
  destruct (prior_eblocks (elements s)) as (P1 & P2 & P3). rewrite P1 in A2.
  assert (F : recs = [] \/ zlen (e_blocks (fst p)) <= PTRDIFF_MAX / 48).
  { destruct A7 as [A7|[A7 _]]; auto. }
  assert (SB : zlen (e_blocks (fst p)) < two64).
  { destruct F as [->|F]; [|rewrite PD48 in F; unfold two64; lia].
    destruct bs; [|rewrite zlen_nil, zlen_cons in A3; pose proof (zlen_nonneg _ bs); lia].
    rewrite A2, app_nil_r. destruct I11 as [->|[X _]]; [rewrite zlen_nil; reflexivity|].
    change sz_ElementBlock with 48 in X. rewrite PD48 in X. unfold two64. lia. }
  pose proof (zlen_nonneg _ (e_blocks (fst p))) as NB.
  split; cbn [set_nodes set_entities set_elements nodes elements]; try assumption.
  - unfold nums_22 in HN. destruct (file_type (mesh_format s) =? 0); [|apply HN].
    destruct HN as [HN _]. rewrite HN, P2, I7. rewrite A2, zlen_app, A3 in *. apply to_size_id. lia.
  - rewrite A2. apply Forall_app. split; assumption.
  - rewrite A2. apply Forall_app. split; assumption.
  - unfold nums_22 in HN. destruct (file_type (mesh_format s) =? 0).
    + destruct HN as (_ & -> & _). apply to_size_range.
    + destruct HN as (_ & -> & _). unfold size_ok. rewrite A2, zlen_app, A3 in SB.
      pose proof (zlen_nonneg _ recs). pose proof (zlen_nonneg _ (e_blocks (elements s))). lia.
  - destruct A7 as [->|A7]; [|right; exact A7].
    destruct bs; [|rewrite zlen_nil, zlen_cons in A3; pose proof (zlen_nonneg _ bs); lia].
    rewrite A2, app_nil_r. exact I11.
Qed.

Lemma inv22_reached : forall c b, sections_22 c b -> forall p, reached c b p -> inv22 c (spec_of p).
Proof.
  intros c b H22. apply reached_inv; [apply inv22_default|].
  intros name spec s spec' s' HM IS HI ED.
  destruct (bytes_eqb name (str "$Nodes")) eqn:E1; [|destruct (bytes_eqb name (str "$Elements")) eqn:E2].
  - apply bytes_eqb_eq in E1. subst name. assert (Hv := H22 _ _ _ HM (or_introl eq_refl)).
    change (dispatch c (str "$Nodes") spec) with (load_nodes c spec) in ED.
    destruct (tri_post _ _ _ (load_nodes_22 any_ub c spec I Hv) _ _ _ ED) as (n' & rows & -> & HA).
    exact (inv22_nodes c spec n' rows HI HA).
  - apply bytes_eqb_eq in E2. subst name. assert (Hv := H22 _ _ _ HM (or_intror eq_refl)).
    change (dispatch c (str "$Elements") spec) with (load_elements c spec) in ED.
    destruct (tri_post _ _ _ (load_elements_22 any_ub c spec I I Hv (iv_num_elements c spec HI)) _ _ _ ED) as (p & -> & HA).
    exact (inv22_elements c spec p HI HA).
  - apply bytes_eqb_neq in E1, E2. destruct (dispatch_frame c name spec E1 E2 _ _ _ ED) as [F1 F2].
    destruct HI as [I1 I2 I3 I4 I5 I6 I7 I8 I9 I10 I11]. split; rewrite ?F1, ?F2; assumption.
Qed.

Lemma inv22_ends : forall c b raw, ends_with c b raw -> sections_22 c b -> inv22 c raw.
Proof. intros c b raw (s & R & _) H. exact (inv22_reached c b H _ R). Qed.

Lemma total_ones : forall (l : list ElementBlock), Forall (fun b => eb_num b = 1) l -> total (map eb_num l) = zlen l.
Proof.
  intros l H. induction H as [|b l Hb H IH]; [reflexivity|]. cbn [map]. rewrite total_cons, zlen_cons, IH, Hb. lia.
Qed.

Lemma least_size : forall l m, Forall size_ok l -> least SIZE_MAX l m -> size_ok m.
Proof.
  intros l m H ([->|HI] & _ & _); [unfold size_ok, SIZE_MAX, two64; lia|].
  rewrite Forall_forall in H. exact (H m HI).
Qed.

Lemma greatest_size : forall l m, Forall size_ok l -> greatest 0 l m -> size_ok m.
Proof.
  intros l m H ([->|HI] & _ & _); [unfold size_ok, two64; lia|].
  rewrite Forall_forall in H. exact (H m HI).
Qed.

Lemma mesh_tags_size : forall n, Forall node_block_22 (n_blocks n) -> Forall size_ok (map n_tag (mesh_nodes n)).
Proof.
  intros n H. apply Forall_forall. intros t Ht. apply in_map_iff in Ht. destruct Ht as (r & <- & Hr).
  apply in_flat_map in Hr. destruct Hr as (b & Hb & Hr). rewrite Forall_forall in H.
  pose proof (block_rows_ok b (H b Hb)) as F. rewrite Forall_forall in F. apply (F r Hr).
Qed.

Lemma inv22_bounds : forall c s, inv22 c s -> size_ok (n_min (nodes s)) /\ size_ok (n_max (nodes s)).
Proof.
  intros c s H. pose proof (mesh_tags_size _ (iv_nodes c s H)) as F.
  destruct (iv_bounds c s H) as [(_ & -> & ->)|(_ & L & G)].
  - unfold size_ok, two64. lia.
  - split; [exact (least_size _ _ F L)|exact (greatest_size _ _ F G)].
Qed.

Lemma inv22_raw : forall c s, inv22 c s -> raw22 s.
Proof.
  intros c s H. destruct (inv22_bounds c s H) as [B1 B2]. destruct H as [I1 I2 I3 I4 I5 I6 I7 I8 I9 I10 I11].
  split; try assumption.
  - eapply Forall_impl; [|exact I4]. cbn beta. intros b Hb. rewrite PD8 in Hb. unfold two64. lia.
  - apply Forall_forall. intros b Hb. rewrite Forall_forall in I8, I9.
    destruct (eb22_data b (I8 b Hb)) as (n & Hn & ->). rewrite (I9 b Hb).
    destruct (gmsh_nodes_spec _ _ Hn) as (_ & Hr & _). unfold two64. lia.
  - rewrite (total_ones _ I9). destruct I11 as [->|[X _]]; [reflexivity|].
    change sz_ElementBlock with 48 in X. rewrite PD48 in X. unfold two64. lia.
Qed.

Lemma inv22_hold : forall c s, 0 <= mem c -> inv22 c s ->
  can_hold c sz_ElementBlock (e_num_blocks (elements s)) (@nil Z) = Ok tt.
Proof.
  intros c s Hm [I1 I2 I3 I4 I5 I6 I7 I8 I9 I10 I11]. rewrite I7. unfold can_hold.
  destruct I11 as [->|[X Y]].
  - rewrite zlen_nil. change sz_ElementBlock with 48. rewrite PD48. reflexivity.
  - replace (PTRDIFF_MAX / sz_ElementBlock <? zlen (e_blocks (elements s))) with false by (symmetry; apply Z.ltb_ge; exact X).
    destruct (_ <=? _); [reflexivity|].
    replace (mem c <? zlen (e_blocks (elements s)) * sz_ElementBlock) with false by (symmetry; apply Z.ltb_ge; exact Y).
    reflexivity.
Qed.

(** A 2.2 file that loads is regrouped. *)
Theorem load22 : forall c b raw s, file_22 c b raw -> load_msh c b = Ok s -> regrouped raw s /\ inv22 c raw.
Proof.
  intros c b raw s (HE & H22 & Hv) HL. pose proof (inv22_ends c b raw HE H22) as HI. split; [|exact HI].
  rewrite (ends_load c b raw HE) in HL.
  destruct (can_hold c sz_size (size_of raw) (@nil Z)) as [[]| |u| |] eqn:C1.
  2,4,5: exfalso; unfold post_process in HL; rewrite Hv in HL; change (bytes_eqb (str "2.2") v22s) with true in HL;
    cbv iota in HL; unfold regroup_nodes in HL; cbv zeta in HL; fold (size_of raw) in HL; rewrite C1 in HL; discriminate.
  2:{ exfalso. eapply can_hold_not_undef. exact C1. }
  assert (C2 : can_hold c sz_ElementBlock (e_num_blocks (elements raw)) (@nil Z) = Ok tt).
  { unfold post_process in HL. rewrite Hv in HL. change (bytes_eqb (str "2.2") v22s) with true in HL.
    cbv iota in HL. unfold regroup_nodes in HL. cbv zeta in HL. fold (size_of raw) in HL. rewrite C1 in HL.
    cbn [obind] in HL. destruct (ofold (mark_block _ _) _ _) as [ar| | | |]; try discriminate. cbn [obind] in HL.
    destruct (ofold _ (n_blocks (nodes raw)) _) as [st| | | |]; try discriminate. cbn [obind] in HL.
    unfold regroup_elements in HL. cbn [set_nodes elements] in HL.
    destruct (can_hold c sz_ElementBlock (e_num_blocks (elements raw)) (@nil Z)) as [[]| | | |]; try discriminate.
    reflexivity. }
  destruct (post22 c raw Hv (inv22_raw c raw HI) C1 C2) as [(_ & s' & E & R)|(_ & E)].
  - rewrite E in HL. injection HL as <-. exact R.
  - rewrite E in HL. discriminate.
Qed.

Lemma regrouped_consistent : forall c raw s, regrouped raw s -> inv22 c raw -> consistent_22 s.
Proof.
  intros c raw s R HI. destruct R as [R1 R2 R3 R4 R5 R6 R7 R8 R0 R9 R10 R11]. split; try assumption.
  rewrite R1. destruct R11 as (nbs & ebs & ->). cbn [set_elements set_nodes nodes n_num_nodes].
  apply (iv_num_nodes c raw HI).
Qed.

Lemma regrouped_bounds : forall c raw s, regrouped raw s -> inv22 c raw ->
  n_min (nodes s) = n_min (nodes raw) /\ n_max (nodes s) = n_max (nodes raw) /\
  n_num_nodes (nodes s) = n_num_nodes (nodes raw).
Proof. intros c raw s R HI. destruct R as [R1 R2 R3 R4 R5 R6 R7 R8 R0 R9 R10 (nbs & ebs & ->)]. auto. Qed.

(** When the tag range can be allocated, the outcome depends on the references only. *)
Theorem post_safe22 : forall c raw, version (mesh_format raw) = str "2.2" -> inv22 c raw ->
  n_min (nodes raw) <= n_max (nodes raw) ->
  fits c sz_size (n_max (nodes raw) - n_min (nodes raw) + 1) ->
  (references_in_range raw /\ exists s, post_process c raw = Ok s /\ regrouped raw s) \/
  (~ references_in_range raw /\ post_process c raw = Undef OutOfBounds).
Proof.
  intros c raw Hv HI HM [HF1 HF2].
  change sz_size with 8 in *. rewrite PD8 in HF1.
  destruct (inv22_bounds c raw HI) as [B1 B2].
  assert (SZ : size_of raw = n_max (nodes raw) - n_min (nodes raw) + 1).
  { unfold size_of. apply to_size_id. unfold two64. lia. }
  assert (C1 : can_hold c sz_size (size_of raw) (@nil Z) = Ok tt).
  { rewrite SZ. unfold can_hold. change sz_size with 8. rewrite PD8.
    replace (1152921504606846975 <? n_max (nodes raw) - n_min (nodes raw) + 1) with false by (symmetry; apply Z.ltb_ge; lia).
    destruct (_ <=? _); [reflexivity|].
    replace (mem c <? (n_max (nodes raw) - n_min (nodes raw) + 1) * 8) with false by (symmetry; apply Z.ltb_ge; lia).
    reflexivity. }
  assert (IR : forall t, size_ok t -> inside (size_of raw) (n_min (nodes raw)) t <->
                 n_min (nodes raw) <= t <= n_max (nodes raw)).
  { intros t Ht. apply inside_range; try assumption. unfold two64. lia. }
  assert (EO : forall e, In e (mesh_elements (elements raw)) -> Forall size_ok (el_nodes e)).
  { intros e He. apply in_flat_map in He. destruct He as (bl & Hb & He).
    pose proof (iv_elements c raw HI) as F. rewrite Forall_forall in F.
    pose proof (block_elements_ok bl (F bl Hb)) as G. rewrite Forall_forall in G. apply (G e He). }
  assert (ND : Forall (fun r => inside (size_of raw) (n_min (nodes raw)) (n_tag r)) (mesh_nodes (nodes raw))).
  { pose proof (mesh_tags_size _ (iv_nodes c raw HI)) as F.
    apply Forall_forall. intros r Hr. rewrite Forall_forall in F.
    assert (IT : In (n_tag r) (map n_tag (mesh_nodes (nodes raw)))) by (apply in_map; exact Hr).
    apply IR; [exact (F _ IT)|].
    destruct (iv_bounds c raw HI) as [(X & _)|(_ & (_ & _ & L) & (_ & _ & G))].
    - unfold mesh_nodes in Hr. rewrite X in Hr. destruct Hr.
    - rewrite Forall_forall in L, G. split; [exact (L _ IT)|exact (G _ IT)]. }
  assert (IX : indexable raw <-> references_in_range raw).
  { split.
    - intros [H _] e t He Ht. rewrite Forall_forall in H. specialize (H e He). unfold el_in in H.
      rewrite Forall_forall in H. apply IR; [|exact (H t Ht)].
      pose proof (EO e He) as F. rewrite Forall_forall in F. exact (F t Ht).
    - intro H. split; [|exact ND]. apply Forall_forall. intros e He. apply Forall_forall. intros t Ht.
      apply IR; [|exact (H e t He Ht)].
      pose proof (EO e He) as F. rewrite Forall_forall in F. exact (F t Ht). }
  assert (M0 : 0 <= mem c) by lia.
  destruct (post22 c raw Hv (inv22_raw c raw HI) C1 (inv22_hold c raw M0 HI)) as [(X & s' & E & R)|(X & E)].
  - left. split; [apply IX; exact X|]. exists s'. split; [exact E|exact R].
  - right. split; [intro Y; apply X, IX, Y|exact E].
Qed.

Theorem safe22 : forall c b raw, file_22 c b raw ->
  n_min (nodes raw) <= n_max (nodes raw) ->
  fits c sz_size (n_max (nodes raw) - n_min (nodes raw) + 1) ->
  (references_in_range raw /\ exists s, load_msh c b = Ok s) \/
  (~ references_in_range raw /\ load_msh c b = Undef OutOfBounds).
Proof.
  intros c b raw (HE & H22 & Hv) HM HF. pose proof (inv22_ends c b raw HE H22) as HI.
  rewrite (ends_load c b raw HE).
  destruct (post_safe22 c raw Hv HI HM HF) as [(H & s & E & _)|H]; [left|right; exact H].
  split; [exact H|]. exists s. exact E.
Qed.
