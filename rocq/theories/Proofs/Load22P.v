(** Reading the $Nodes and $Elements sections of 2.2 files, whatever the bytes. *)

From Verif Require Import Model.LoadMsh Spec.Records Proofs.BytesP Proofs.RtStep
  Proofs.ElemP Proofs.TriP Proofs.PostP.

Ltac Zify.zify_post_hook ::= idtac.

Lemma PD8 : PTRDIFF_MAX / 8 = 1152921504606846975. Proof. reflexivity. Qed.
Lemma PD48 : PTRDIFF_MAX / 48 = 192153584101141162. Proof. reflexivity. Qed.
Lemma PD72 : PTRDIFF_MAX / 72 = 128102389400760775. Proof. reflexivity. Qed.

(** ** Minimum and maximum *)

Lemma fold_min_least : forall l i, least i l (fold_left Z.min l i).
Proof.
  induction l as [|x l IH]; intro i; cbn [fold_left].
  - split; [left; reflexivity|]. split; [lia|constructor].
  - destruct (IH (Z.min i x)) as (H1 & H2 & H3). split; [|split; [lia|constructor; [lia|exact H3]]].
    destruct H1 as [H1|H1]; [|right; right; exact H1].
    destruct (Z.min_spec i x) as [[L E]|[L E]]; [left; congruence|right; left; congruence].
Qed.

Lemma fold_max_greatest : forall l i, greatest i l (fold_left Z.max l i).
Proof.
  induction l as [|x l IH]; intro i; cbn [fold_left].
  - split; [left; reflexivity|]. split; [lia|constructor].
  - destruct (IH (Z.max i x)) as (H1 & H2 & H3). split; [|split; [lia|constructor; [lia|exact H3]]].
    destruct H1 as [H1|H1]; [|right; right; exact H1].
    destruct (Z.max_spec i x) as [[L E]|[L E]]; [right; left; congruence|left; congruence].
Qed.

(** ** Nodes *)

(** A row as the loaders collect it. *)
Definition nrow (r : Z * list dbl) : Prop :=
  size_ok (fst r) /\ List.length (snd r) = 3%nat /\ Forall size_ok (snd r).

Lemma v22_node_ascii_tri : forall U c x, tri (v22_node_ascii c x) nrow U.
Proof.
  intros U c x. assert (Z0 : size_ok 0) by (unfold size_ok, two64; lia).
  unfold v22_node_ascii. repeat rd. apply tri_ret.
  split; [assumption|]. split; [reflexivity|]. repeat (constructor; [assumption|]). constructor.
Qed.

Lemma v22_node_binary_tri : forall (U : ub -> Prop) c x, U Indeterminate -> tri (v22_node_binary c x) nrow U.
Proof.
  intros U c x HU. unfold v22_node_binary. repeat rd.
  eapply tri_bind.
  { apply (tri_raw_array _ _ (fun _ => True) size_ok); [repeat constructor|]. intros o _. apply tri_raw_double. }
  intros xyz [L F]. apply tri_ret. split; [apply to_size_range|]. split; [|exact F].
  cbn [snd]. apply Nat2Z.inj. exact L.
Qed.

Definition row_node (r : Z * list dbl) : node :=
  {| n_tag := fst r; n_x := nth 0 (snd r) 0; n_y := nth 1 (snd r) 0; n_z := nth 2 (snd r) 0 |}.

Lemma nodes_of_rows : forall rows, Forall nrow rows ->
  nodes_of 3 (map fst rows) (List.concat (map snd rows)) = map row_node rows.
Proof.
  intros rows H. induction H as [|[t d] rows (H1 & H2 & H3) H IH]; [reflexivity|].
  cbn [snd fst] in *. destruct d as [|x [|y [|z [|]]]]; try discriminate.
  cbn [map List.concat nodes_of app nth skipn fst snd]. rewrite IH. reflexivity.
Qed.

Lemma rows_data : forall rows, Forall nrow rows ->
  zlen (List.concat (map snd rows)) = 3 * zlen rows /\ Forall size_ok (List.concat (map snd rows)).
Proof.
  intros rows H. induction H as [|[t d] rows (H1 & H2 & H3) H [IH1 IH2]]; [split; [reflexivity|constructor]|].
  cbn [map List.concat snd] in *. rewrite zlen_app, zlen_cons, IH1. split; [unfold zlen; lia|].
  apply Forall_app. split; assumption.
Qed.

Lemma v22_add_block_spec : forall n num rows, Forall nrow rows -> zlen rows = num ->
  num * 3 <= PTRDIFF_MAX / 8 -> zlen (n_blocks n) + 1 <= PTRDIFF_MAX / 72 ->
  nodes_appended n (v22_add_block n num rows (n_blocks n)) (map row_node rows).
Proof.
  intros n num rows HR HL HF HB. destruct (rows_data rows HR) as [D1 D2].
  assert (T : map n_tag (map row_node rows) = map fst rows) by (rewrite map_map; apply map_ext; reflexivity).
  split.
  - eexists. cbn [v22_add_block n_blocks]. split; [reflexivity|].
    cbn [nb_dim nb_tag nb_data]. split; [|split; [reflexivity|split; [reflexivity|split]]].
    + split; cbn [nb_parametric nb_dim nb_tag nb_num nb_tags nb_data]; try reflexivity;
        try (unfold int_ok, INT_MIN, INT_MAX; lia).
      * rewrite zlen_map. symmetry. exact HL.
      * apply Forall_forall. intros t Ht. apply in_map_iff in Ht. destruct Ht as (r & <- & Hr).
        rewrite Forall_forall in HR. apply (HR r Hr).
      * exact D2.
    + unfold block_nodes, node_width. cbn [nb_parametric nb_dim nb_tags nb_data Z.eqb].
      apply nodes_of_rows. exact HR.
    + rewrite D1, HL, Z.mul_comm. exact HF.
  - reflexivity.
  - cbn [v22_add_block n_num_nodes]. rewrite zlen_map, HL. reflexivity.
  - rewrite T. cbn [v22_add_block n_min]. destruct (0 <? num) eqn:E; [apply fold_min_least|].
    apply Z.ltb_ge in E. destruct rows; [|rewrite zlen_cons in HL; pose proof (zlen_nonneg _ rows); lia].
    split; [left; reflexivity|]. split; [lia|constructor].
  - rewrite T. cbn [v22_add_block n_max]. destruct (0 <? num) eqn:E; [apply fold_max_greatest|].
    apply Z.ltb_ge in E. destruct rows; [|rewrite zlen_cons in HL; pose proof (zlen_nonneg _ rows); lia].
    split; [left; reflexivity|]. split; [lia|constructor].
  - cbn [v22_add_block n_blocks]. rewrite zlen_app. exact HB.
Qed.

Lemma v22_resizes_tri : forall U c num, size_ok num ->
  tri (lift (v22_resizes c num)) (fun _ => num * 3 <= PTRDIFF_MAX / 8) U.
Proof.
  intros U c num H. apply tri_lift. unfold v22_resizes.
  destruct (can_hold c sz_size num []) as [[]| |u| |] eqn:E1; cbn [obind]; try exact I.
  2:{ exfalso. eapply can_hold_not_undef. exact E1. }
  apply can_hold_inv in E1. destruct E1 as [E1 _]. change sz_size with 8 in E1.
  rewrite PD8 in E1. unfold size_ok in H.
  rewrite to_size_id by (unfold two64 in *; lia).
  destruct (can_hold c sz_double (num * 3) []) as [[]| |u| |] eqn:E2; try exact I.
  2:{ exfalso. eapply can_hold_not_undef. exact E2. }
  apply can_hold_inv in E2. apply E2.
Qed.

Section Nodes22.
Variables (c : cfg) (n : Nodes).

Lemma block_slot_tri : forall U,
  tri (lift (can_hold c sz_NodeBlock (zlen (n_blocks n) + 1) (n_blocks n)))
      (fun _ => zlen (n_blocks n) + 1 <= PTRDIFF_MAX / 72) U.
Proof.
  intro U. apply tri_lift. destruct (can_hold c sz_NodeBlock (zlen (n_blocks n) + 1) (n_blocks n)) as [[]| |u| |] eqn:E; try exact I.
  - apply can_hold_inv in E. apply E.
  - exfalso. eapply can_hold_not_undef. exact E.
Qed.

Lemma repeat_true : forall k, Forall (fun _ : unit => True) (repeat tt k).
Proof. intro k. apply Forall_forall. intros; exact I. Qed.

Definition nodes_post (n' : Nodes) : Prop := exists rows, nodes_appended n n' rows.

Lemma v22_load_nodes_ascii_tri : forall U, tri (v22_load_nodes_ascii c n) nodes_post U.
Proof.
  intro U. assert (Z0 : size_ok 0) by (unfold size_ok, two64; lia).
  unfold v22_load_nodes_ascii. eapply tri_bind; [apply block_slot_tri|]. intros ? HB.
  do 2 rd. eapply tri_bind; [apply v22_resizes_tri; assumption|]. intros ? HF.
  eapply tri_bind.
  { apply (tri_mapM _ _ _ _ (fun _ => True) nrow); [apply repeat_true|]. intros x _. apply v22_node_ascii_tri. }
  intros rows [HL HR]. apply tri_ret. exists (map row_node rows).
  apply v22_add_block_spec; try assumption.
  rewrite HL. unfold zlen. rewrite repeat_length. unfold size_ok in *. lia.
Qed.

Lemma v22_load_nodes_binary_tri : forall U : ub -> Prop, U Indeterminate ->
  tri (v22_load_nodes_binary c n) nodes_post U.
Proof.
  intros U HU. assert (Z0 : size_ok 0) by (unfold size_ok, two64; lia).
  unfold v22_load_nodes_binary. eapply tri_bind; [apply block_slot_tri|]. intros ? HB.
  do 2 rd. eapply tri_bind; [apply v22_resizes_tri; assumption|]. intros ? HF.
  rd. eapply tri_bind.
  { apply (tri_mapM _ _ _ _ (fun _ => True) nrow); [apply repeat_true|]. intros x _.
    apply v22_node_binary_tri. exact HU. }
  intros rows [HL HR]. apply tri_ret. exists (map row_node rows).
  apply v22_add_block_spec; try assumption.
  rewrite HL. unfold zlen. rewrite repeat_length. unfold size_ok in *. lia.
Qed.
End Nodes22.

(** ** Elements *)

Definition rec_block (r : el_rec) : ElementBlock :=
  one_element (rec_dim r) (rec_entity r) (er_type r) (er_id r) (er_nodes r).

Definition add_rec (pm : pmaps) (r : el_rec) : pmaps := snd (classify (rec_dim r) (er_tags r) pm).

Lemma classify_rec : forall r pm, classify (rec_dim r) (er_tags r) pm = (rec_entity r, add_rec pm r).
Proof.
  intros r pm. unfold add_rec, rec_entity, classify. destruct (er_tags r) as [|a [|b l]]; reflexivity.
Qed.

Lemma zlen_map_to_size : forall l : list Z, zlen (map to_size l) = zlen l.
Proof. intro l. apply zlen_map. Qed.

Lemma rec_block_22 : forall r, rec_ok r -> element_block_22 (rec_block r) /\ eb_num (rec_block r) = 1 /\
  block_elements (rec_block r) = [rec_element r].
Proof.
  intros r [H1 H2 H3 H4]. destruct (nodes_dim _ _ H2) as (d & Hd).
  destruct (gmsh_nodes_spec _ _ H2) as (_ & Hn & _).
  split; [|split; [reflexivity|]].
  - split; cbn [rec_block one_element eb_dim eb_tag eb_type eb_num eb_data].
    + unfold rec_dim. rewrite Hd. reflexivity.
    + unfold rec_entity. destruct (er_tags r) as [|a [|b l]].
      * unfold int_ok, INT_MIN, INT_MAX. lia.
      * inversion H3; assumption.
      * inversion H3 as [|? ? _ H5]; inversion H5; assumption.
    + unfold size_ok, two64. lia.
    + exists (zlen (er_nodes r)). split; [exact H2|]. rewrite zlen_cons, zlen_map_to_size. lia.
    + constructor; [apply to_size_range|]. apply Forall_forall. intros x Hx. apply in_map_iff in Hx.
      destruct Hx as (y & <- & _). apply to_size_range.
  - unfold block_elements. cbn [rec_block one_element eb_type eb_num eb_data]. rewrite H2.
    change (Z.to_nat 1) with 1%nat. cbn [cut map]. f_equal.
    rewrite firstn_all2.
    + reflexivity.
    + cbn [List.length]. rewrite map_length. unfold zlen. lia.
Qed.

Lemma rec_blocks_22 : forall recs, Forall rec_ok recs -> Forall element_block_22 (map rec_block recs) /\
  Forall (fun b => eb_num b = 1) (map rec_block recs) /\
  flat_map block_elements (map rec_block recs) = map rec_element recs.
Proof.
  intros recs H. induction H as [|r recs Hr H (I1 & I2 & I3)].
  - repeat split; constructor.
  - destruct (rec_block_22 r Hr) as (J1 & J2 & J3). cbn [map flat_map].
    repeat split; try (constructor; assumption). rewrite J3, I3. reflexivity.
Qed.

Section Elements22.
Variables (c : cfg) (old : list ElementBlock).

Definition slots (recs : list el_rec) : Prop :=
  recs = [] \/ fits c sz_ElementBlock (zlen (old ++ map rec_block recs)).

Record va_inv (mn mx : Z) (recs : list el_rec) (st : va) : Prop := {
  vai_recs : Forall rec_ok recs;
  vai_vars : some int_ok (va_num st) /\ some int_ok (va_type st) /\ some int_ok (va_ntags st);
  vai_tags : Forall int_ok (va_tags st);
  vai_ids : Forall int_ok (va_ids st);
  vai_blocks : va_blocks st = old ++ map rec_block recs;
  vai_pm : va_pm st = fold_left add_rec recs pmaps_empty;
  vai_min : va_min st = fold_left Z.min (map to_size (map er_id recs)) mn;
  vai_max : va_max st = fold_left Z.max (map to_size (map er_id recs)) mx;
  vai_fits : slots recs }.

Lemma some_some : forall (P : Z -> Prop) a, P a -> some P (Some a).
Proof. intros P a H v E. injection E as <-. exact H. Qed.

Lemma emplace_tri : forall U (b : ElementBlock) l,
  tri (lift (emplace_back c sz_ElementBlock b l)) (fun l' => l' = l ++ [b] /\ fits c sz_ElementBlock (zlen l')) U.
Proof.
  intros U b l. apply tri_lift. unfold emplace_back.
  destruct (can_hold c sz_ElementBlock (zlen l + 1) l) as [[]| |u| |] eqn:E; cbn [obind]; try exact I.
  - apply can_hold_inv in E. destruct E as [E1 [E2|E2]]; [lia|]. split; [reflexivity|].
    rewrite zlen_app. split; assumption.
  - exfalso. eapply can_hold_not_undef. exact E.
Qed.

Lemma npe_tri : forall U t, tri (lift (nodes_per_element t)) (fun n => gmsh_nodes t = Some n) U.
Proof.
  intros U t. apply tri_lift. destruct (nodes_per_element t) as [n| |u| |] eqn:E; try exact I.
  - apply npe_ok. exact E.
  - exfalso. eapply npe_not_undef. exact E.
Qed.

Lemma dim_tri : forall U t, tri (lift (get_element_dim t)) (fun d => gmsh_dim t = Some d) U.
Proof.
  intros U t. apply tri_lift. destruct (get_element_dim t) as [n| |u| |] eqn:E; try exact I.
  - apply dim_ok. exact E.
  - exfalso. eapply dim_not_undef. exact E.
Qed.

Lemma v22_element_ascii_tri : forall (U : ub -> Prop) mn mx recs st, U Indeterminate -> va_inv mn mx recs st ->
  tri (v22_element_ascii c st) (fun st' => exists r, va_inv mn mx (recs ++ [r]) st') U.
Proof.
  intros U mn mx recs st HU [V1 (V2 & V3 & V4) V5 V6 V7 V8 V9 V10 V11]. unfold v22_element_ascii.
  assert (Z0 : int_ok 0) by (unfold int_ok, INT_MIN, INT_MAX; lia).
  do 4 rd. eapply tri_bind.
  { apply (tri_resize _ _ _ _ 0 (to_size a2) (va_tags st) int_ok); [apply to_size_range|exact Z0|exact V5]. }
  intros tags0 (T1 & T2 & _). eapply tri_bind.
  { apply (tri_mapM _ _ _ _ int_ok int_ok); [exact T2|]. intros x Hx. apply tri_int. exact Hx. }
  intros tags (T3 & T4). rd. eapply tri_bind; [apply npe_tri|]. intros n Hn.
  destruct (gmsh_nodes_spec _ _ Hn) as (_ & Hr & _).
  eapply tri_bind.
  { apply (tri_resize _ _ _ _ 0 n (va_ids st) int_ok); [lia|exact Z0|exact V6]. }
  intros ids0 (I1 & I2 & _). eapply tri_bind.
  { apply (tri_mapM _ _ _ _ int_ok int_ok); [exact I2|]. intros x Hx. apply tri_int. exact Hx. }
  intros ids (I3 & I4). rd. eapply tri_bind; [apply dim_tri|]. intros d Hd.
  set (r := {| er_id := a4; er_type := a3; er_tags := tags; er_nodes := ids |}).
  assert (Hrec : rec_ok r).
  { split; cbn [r er_id er_type er_tags er_nodes]; try assumption. rewrite I3, I1. exact Hn. }
  replace d with (rec_dim r) by (unfold rec_dim; cbn [r er_type]; rewrite Hd; reflexivity).
  change tags with (er_tags r) at 1. rewrite classify_rec.
  change (one_element (rec_dim r) (rec_entity r) a3 a4 ids) with (rec_block r).
  eapply tri_bind; [apply emplace_tri|]. intros bs [-> HF]. apply tri_ret. exists r.
  split; cbn [va_num va_type va_ntags va_tags va_ids va_blocks va_pm va_min va_max].
  - apply Forall_app. split; [exact V1|]. constructor; [exact Hrec|constructor].
  - split; [|split]; apply some_some; assumption.
  - exact T4.
  - exact I4.
  - rewrite V7, map_app, app_assoc. reflexivity.
  - rewrite V8, fold_left_app. reflexivity.
  - rewrite V9, !map_app, fold_left_app. reflexivity.
  - rewrite V10, !map_app, fold_left_app. reflexivity.
  - right. rewrite map_app, app_assoc, <- V7. exact HF.
Qed.

Lemma v22_elements_ascii_tri : forall (U : ub -> Prop) mn mx ne st, U Indeterminate -> va_inv mn mx [] st ->
  tri (iterM ne (v22_element_ascii c) st)
      (fun st' => exists recs, List.length recs = ne /\ va_inv mn mx recs st') U.
Proof.
  intros U mn mx ne st HU H0.
  apply (tri_iterM U _ (fun i st' => exists recs, List.length recs = i /\ va_inv mn mx recs st')).
  - intros i s Li (recs & L & HI). eapply tri_weaken; [apply v22_element_ascii_tri; [exact HU|exact HI]|].
    intros a (r & Hr). exists (recs ++ [r]). split; [rewrite app_length, L; reflexivity|exact Hr].
  - exists []. split; [reflexivity|exact H0].
Qed.

(** Binary. *)
Record vb_inv (recs : list el_rec) (st : vb) : Prop := {
  vbi_recs : Forall rec_ok recs;
  vbi_tags : Forall int_ok (vb_tags st);
  vbi_ids : Forall int_ok (vb_ids st);
  vbi_done : vb_done st = zlen recs;
  vbi_blocks : vb_blocks st = old ++ map rec_block recs;
  vbi_pm : vb_pm st = fold_left add_rec recs pmaps_empty;
  vbi_min : vb_min st = fold_left Z.min (map er_id recs) INT_MAX;
  vbi_max : vb_max st = fold_left Z.max (map er_id recs) 0;
  vbi_fits : slots recs }.

Lemma v22_element_binary_tri : forall (U : ub -> Prop) typ n nt N id0 st recs,
  U Indeterminate -> U SignedOverflow -> gmsh_nodes typ = Some n -> zlen (vb_ids st) = n ->
  some int_ok id0 -> vb_inv recs st ->
  tri (v22_element_binary c typ nt N (id0, st))
      (fun p => some int_ok (fst p) /\ exists r, vb_inv (recs ++ [r]) (snd p) /\ zlen (vb_ids (snd p)) = n /\
                  zlen recs + 1 <= N) U.
Proof.
  intros U typ n nt N id0 st recs HU HS Hn HL Hid [V1 V2 V3 V4 V5 V6 V7 V8 V9]. unfold v22_element_binary.
  rd. apply (tri_bind _ _ _ _ _ (fun _ => True)).
  { destruct (INT_MAX <? 4 * nt); [apply tri_undef; exact HS|apply tri_ret; exact I]. }
  intros ? _. eapply tri_bind.
  { apply (tri_raw_array _ _ int_ok int_ok); [exact V2|]. intros o _. apply tri_raw_int. }
  intros tags [T1 T2]. eapply tri_bind.
  { apply (tri_raw_array _ _ int_ok int_ok); [exact V3|]. intros o _. apply tri_raw_int. }
  intros ids [I1 I2].
  apply (tri_bind _ _ _ _ _ int_ok); [apply tri_use; [assumption|exact HU]|]. intros id Hi. eapply tri_bind; [apply dim_tri|]. intros d Hd.
  set (r := {| er_id := id; er_type := typ; er_tags := tags; er_nodes := ids |}).
  assert (Hrec : rec_ok r).
  { split; cbn [r er_id er_type er_tags er_nodes]; try assumption. rewrite I1, HL. exact Hn. }
  replace d with (rec_dim r) by (unfold rec_dim; cbn [r er_type]; rewrite Hd; reflexivity).
  change tags with (er_tags r) at 1. rewrite classify_rec.
  change (one_element (rec_dim r) (rec_entity r) typ id ids) with (rec_block r).
  eapply tri_bind; [apply emplace_tri|]. intros bs [-> HF]. cbv zeta.
  destruct (N <? vb_done st + 1) eqn:EN; [apply tri_throw|]. apply Z.ltb_ge in EN.
  apply tri_ret. cbn [fst snd]. split; [apply some_some; assumption|]. exists r.
  split; [|split; [cbn [vb_ids]; lia|rewrite <- V4; exact EN]].
  split; cbn [vb_tags vb_ids vb_done vb_blocks vb_pm vb_min vb_max].
  - apply Forall_app. split; [exact V1|]. constructor; [exact Hrec|constructor].
  - exact T2.
  - exact I2.
  - rewrite zlen_app, V4. reflexivity.
  - rewrite V5, map_app, app_assoc. reflexivity.
  - rewrite V6, fold_left_app. reflexivity.
  - rewrite V7, map_app, fold_left_app. reflexivity.
  - rewrite V8, map_app, fold_left_app. reflexivity.
  - right. rewrite map_app, app_assoc, <- V5. exact HF.
Qed.

Lemma v22_elements_loop_tri : forall (U : ub -> Prop) N f st recs, U Indeterminate -> U SignedOverflow ->
  vb_inv recs st -> zlen recs <= N ->
  tri (v22_elements_loop f c N st) (fun st' => exists recs', vb_inv recs' st' /\ zlen recs' = N) U.
Proof.
  intros U N f. induction f as [|f IH]; intros st recs HU HS HI HN; cbn [v22_elements_loop].
  - intro s. exact I.
  - destruct (vb_done st =? N) eqn:ED.
    { apply Z.eqb_eq in ED. apply tri_ret. exists recs. split; [exact HI|]. rewrite <- (vbi_done _ _ HI). exact ED. }
    assert (Z0 : int_ok 0) by (unfold int_ok, INT_MIN, INT_MAX; lia).
    destruct HI as [V1 V2 V3 V4 V5 V6 V7 V8 V9].
    do 4 rd. eapply tri_bind.
    { apply (tri_resize _ _ _ _ 0 (to_size a2) (vb_tags st) int_ok); [apply to_size_range|exact Z0|exact V2]. }
    intros tags (T1 & T2 & _). rd. eapply tri_bind; [apply npe_tri|]. intros n Hn.
    destruct (gmsh_nodes_spec _ _ Hn) as (_ & Hr & _).
    eapply tri_bind.
    { apply (tri_resize _ _ _ _ 0 n (vb_ids st) int_ok); [lia|exact Z0|exact V3]. }
    intros ids (I1 & I2 & _). rd. cbv zeta.
    apply (tri_bind _ _ _ _ _ (fun p => some int_ok (fst p) /\ exists recs', vb_inv recs' (snd p) /\
             zlen (vb_ids (snd p)) = n /\ zlen recs' <= N)).
    { match goal with |- tri (iterM ?k ?b _) _ _ =>
        apply (tri_iterM U _ (fun _ p => some int_ok (fst p) /\ exists recs', vb_inv recs' (snd p) /\
             zlen (vb_ids (snd p)) = n /\ zlen recs' <= N) k b) end.
      - intros i [id0 st0] _ (Hid & recs' & J1 & J2 & J3). cbn [fst snd] in *.
        eapply tri_weaken; [apply v22_element_binary_tri; eassumption|].
        intros [id1 st1] (K1 & r & K2 & K3 & K4). split; [exact K1|]. exists (recs' ++ [r]).
        split; [exact K2|]. split; [exact K3|]. rewrite zlen_app. exact K4.
      - cbn [fst snd]. split; [apply some_none|]. exists recs. split; [|split; [exact I1|exact HN]].
        split; cbn [vb_tags vb_ids vb_done vb_blocks vb_pm vb_min vb_max]; assumption. }
    intros p (_ & recs' & J1 & J2 & J3). apply (IH (snd p) recs'); assumption.
Qed.
End Elements22.

(** ** The whole section *)

Definition nums_22 (e e' : Elements) (recs : list el_rec) (ascii : bool) : Prop :=
  if ascii then
    e_num_blocks e' = to_size (e_num_blocks e + zlen recs) /\
    e_num_elements e' = to_size (e_num_elements e + zlen recs) /\
    e_min e' = fold_left Z.min (map to_size (map er_id recs)) (e_min e) /\
    e_max e' = fold_left Z.max (map to_size (map er_id recs)) (e_max e)
  else
    e_num_blocks e' = zlen (e_blocks e') /\
    e_num_elements e' = zlen recs /\
    e_min e' = Z.min (e_min e) (to_size (fold_left Z.min (map er_id recs) INT_MAX)) /\
    e_max e' = Z.max (e_max e) (to_size (fold_left Z.max (map er_id recs) 0)).

Definition elements_post (c : cfg) (e : Elements) (en : Entities) (ascii : bool) (p : Elements * Entities) : Prop :=
  exists recs, elements_appended c e (fst p) recs /\ nums_22 e (fst p) recs ascii /\
    snd p = create_all (fold_left add_rec recs pmaps_empty) en.

Lemma appended_recs : forall c e e' recs, Forall rec_ok recs ->
  e_blocks e' = e_blocks e ++ map rec_block recs -> slots c (e_blocks e) recs -> elements_appended c e e' recs.
Proof.
  intros c e e' recs H E HS. destruct (rec_blocks_22 recs H) as (J1 & J2 & J3). split.
  - exact H.
  - exists (map rec_block recs). rewrite zlen_map. auto.
  - rewrite E. exact HS.
Qed.

Lemma v22_load_elements_ascii_tri : forall (U : ub -> Prop) c e en, U Indeterminate ->
  tri (v22_load_elements_ascii c e en) (elements_post c e en true) U.
Proof.
  intros U c e en HU. unfold v22_load_elements_ascii. do 2 rd.
  eapply tri_bind.
  { apply (v22_elements_ascii_tri c (e_blocks e) U (e_min e) (e_max e)); [exact HU|].
    split; cbn [va_num va_type va_ntags va_tags va_ids va_blocks va_pm va_min va_max].
    - constructor.
    - split; [|split]; apply some_none.
    - constructor.
    - constructor.
    - rewrite app_nil_r. reflexivity.
    - reflexivity.
    - reflexivity.
    - reflexivity.
    - left. reflexivity. }
  intros st (recs & L & [V1 V2 V3 V4 V5 V6 V7 V8 V9]). apply tri_ret. exists recs. cbn [fst snd].
  assert (EL : zlen recs = a0) by (unfold zlen; rewrite L; unfold size_ok in *; lia).
  split; [apply appended_recs; assumption|]. split; [|rewrite V6; reflexivity].
  cbn [nums_22 e_num_blocks e_num_elements e_min e_max]. rewrite EL. auto.
Qed.

Lemma v22_load_elements_binary_tri : forall (U : ub -> Prop) c e en, U Indeterminate -> U SignedOverflow ->
  size_ok (e_num_elements e) ->
  tri (v22_load_elements_binary c e en) (elements_post c e en false) U.
Proof.
  intros U c e en HU HS H0. unfold v22_load_elements_binary. rd.
  apply (tri_bind _ _ _ _ _ (fun _ => True)).
  { apply tri_lift. destruct (can_hold c sz_ElementBlock a (e_blocks e)) as [[]| |u| |] eqn:E; try exact I.
    exfalso. eapply can_hold_not_undef. exact E. }
  intros ? _. rd. eapply tri_bind.
  { intro s. apply (v22_elements_loop_tri c (e_blocks e) U a (S (List.length (rest s))) _ []); [exact HU|exact HS| |].
    - split; cbn [vb_tags vb_ids vb_done vb_blocks vb_pm vb_min vb_max];
        [constructor|constructor|constructor|reflexivity|rewrite app_nil_r; reflexivity|reflexivity|reflexivity|reflexivity|].
      left. reflexivity.
    - unfold size_ok in *. rewrite zlen_nil. lia. }
  intros st (recs & [V1 V2 V3 V4 V5 V6 V7 V8 V9] & EL). apply tri_ret. exists recs. cbn [fst snd].
  split; [apply appended_recs; assumption|]. split; [|rewrite V6; reflexivity].
  cbn [nums_22 e_num_blocks e_num_elements e_min e_max e_blocks]. rewrite EL, V7, V8. auto.
Qed.
