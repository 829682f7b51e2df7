(** Files with "nan" or "inf" in them cannot be loaded. *)

From Verif Require Import Model.Save Spec.NonFinite Spec.Steps Proofs.BytesP Proofs.RtBase Proofs.ShowP
  Proofs.WriteP Proofs.RtStep Proofs.Mono Proofs.Fuel Proofs.Reach Proofs.Compose Proofs.Rt41A Proofs.Rt41B
  Proofs.Rt41 Proofs.GuardP.

Ltac Zify.zify_post_hook ::= idtac.

(** Apply the step lemma for the head of the reader. *)
Ltac mono_side := intro; mono_go.
Ltac gt_int :=
  rewrite (app_assoc (show_Z _));
  eapply GT_step;
  [first [apply rd_int_RT | apply rd_size_RT | apply rd_size_opt_RT | apply rd_int_opt_RT];
   [try assumption|auto with rt|nonnil]|].
Ltac gt0 := eapply GT_bind0; [intros; first [apply assert_good_ok; assumption | reflexivity]|].
Ltac gt_ret := eapply GT_last; [intro; mono_go| |first [apply RT_ret | eapply RT_bind0; [intros; apply assert_good_ok; assumption|apply RT_ret]]].

(** ** Nodes *)

Lemma load_node_block_GT : forall c b b0, node_block_ok c false b ->
  (ndebug c = false -> 0 <= nb_parametric b <= 3) ->
  GT (forallb is_finite (nb_data b)) (v41_node_block_ascii c b0) (node_block_text b) (node_block_via true r6 b).
Proof.
  intros c b b0 H Hp3. destruct H as [Hd Ht Hp _ Hn Hts Hw Hdat Hv Hm1 Hm2].
  unfold v41_node_block_ascii, node_block_text.
  pose proof (fits_size_ok' _ _ _ _ Hm1 eq_refl) as Hs1.
  pose proof (fits_size_ok' _ _ _ _ Hm2 eq_refl) as Hs2.
  do 3 gt_int. gt_int; [rewrite Hn; exact Hs1|]. gt0.
  destruct (fits_resize Z c sz_size 0 (nb_num b) (nb_tags b0)) as (v1 & E1 & L1);
    [reflexivity|rewrite Hn; apply zlen_nonneg|rewrite Hn; exact Hm1|].
  eapply GT_bind0; [intros; apply lift_ok; exact E1|].
  eapply GT_step.
  { apply (mapM_sizes (nb_tags b)); [apply spaced_each|exact Hts|]. apply zlen_length. congruence. }
  gt0. eapply GT_bind0.
  { intros. apply massert_ok. destruct (ndebug c) eqn:N; [right; reflexivity|left].
    specialize (Hp3 eq_refl). apply andb_true_iff. split; apply Z.leb_le; lia. }
  eapply GT_bind0; [intros; apply lift_ok; apply epn_ok; exact Hw|].
  destruct (fits_resize Z c sz_double 0 (zlen (nb_data b)) (nb_data b0)) as (v2 & E2 & L2);
    [reflexivity|apply zlen_nonneg|exact Hm2|].
  eapply GT_bind0.
  { intros. apply lift_ok. rewrite <- Hdat. rewrite to_size_id by exact Hs2. exact E2. }
  rewrite fill_ok by (rewrite <- Hdat; symmetry; assumption).
  gt_ret. apply (mapM_doubles_GT (nb_data b)).
  - rewrite <- (concat_rows _ (nb_data b) (nb_num b) (node_width b)) at 1;
      [apply spaced_lines|rewrite Hn; apply zlen_nonneg|lia|exact Hdat].
  - eapply dbls_ok_b. exact Hv.
  - apply zlen_length. exact L2.
Qed.

Lemma load_nodes_GT : forall c n n0, nodes_ok c false n -> size_ok (n_num_nodes n) ->
  (ndebug c = false -> Forall (fun b => 0 <= nb_parametric b <= 3) (n_blocks n)) ->
  GT (forallb (fun b => forallb is_finite (nb_data b)) (n_blocks n)) (v41_load_nodes_ascii c n0) (nodes_text n)
     {| n_num_blocks := n_num_blocks n; n_num_nodes := n_num_nodes n; n_min := n_min n;
        n_max := n_max n; n_blocks := map (node_block_via true r6) (n_blocks n) |}.
Proof.
  intros c n n0 H Hnn H3. destruct H as [Hn Hmin Hmax Hm Hb]. unfold v41_load_nodes_ascii, nodes_text.
  pose proof (fits_size_ok' _ _ _ _ Hm eq_refl) as Hs.
  gt_int; [rewrite Hn; exact Hs|]. do 3 gt_int. gt0.
  destruct (fits_resize NodeBlock c sz_NodeBlock nb_default (n_num_blocks n) (n_blocks n0)) as (v1 & E1 & L1);
    [reflexivity|rewrite Hn; apply zlen_nonneg|rewrite Hn; exact Hm|].
  eapply GT_bind0; [intros; apply lift_ok; exact E1|].
  gt_ret. apply mapM_GT; [intro; unfold v41_node_block_ascii; mono_go|apply zlen_length; congruence|].
  intros x b _ Hin. rewrite Forall_forall in Hb. apply load_node_block_GT; [auto|].
  intro N. specialize (H3 N). rewrite Forall_forall in H3. auto.
Qed.

(** ** Entities *)

Definition point_good (p : PointEntity) : bool :=
  is_finite (pe_x p) && (is_finite (pe_y p) && (is_finite (pe_z p) && true)).
Definition entity_good (e : Entity) : bool :=
  is_finite (en_min_x e) && (is_finite (en_min_y e) && (is_finite (en_min_z e) &&
  (is_finite (en_max_x e) && (is_finite (en_max_y e) && (is_finite (en_max_z e) && true))))).

Ltac gt_dbl := eapply GT_double; [intro; unfold ints_ascii; mono_go|eapply dbl_ok_b; eassumption|apply ws_sp|nonnil|].

Lemma load_point_GT : forall c p p0, point_ok c false p ->
  GT (point_good p) (point_ascii c p0) (point_text p) (point_via true r6 p).
Proof.
  intros c p p0 H. destruct H as [Ht (Hx & Hy & Hz) Hp].
  unfold point_ascii, point_text, point_good. gt_int. do 3 gt_dbl.
  apply GT_RT. rewrite <- (app_nil_r endl).
  eapply RT_ints; [exact Hp|apply ws_endl|discriminate|]. apply RT_ret.
Qed.

Lemma load_entity_GT : forall c e e0, entity_ok c false e ->
  GT (entity_good e) (entity_ascii c e0) (entity_text e) (entity_via true r6 e).
Proof.
  intros c e e0 H. destruct H as [Ht (Hx & Hy & Hz) (Hx1 & Hy1 & Hz1) Hp Hb].
  unfold entity_ascii, entity_text, entity_good. gt_int. do 6 gt_dbl.
  apply GT_RT. eapply RT_ints; [exact Hp|apply ws_sp|discriminate|].
  rewrite <- (app_nil_r endl).
  eapply RT_ints; [exact Hb|apply ws_endl|discriminate|]. apply RT_ret.
Qed.

Definition entities_good (en : Entities) : bool :=
  forallb point_good (points en) && (forallb entity_good (curves_e en) &&
  (forallb entity_good (surfaces_e en) && forallb entity_good (volumes_e en))).

Lemma load_entities_GT : forall c en en0, entities_ok c false en ->
  GT (entities_good en) (v41_load_entities_ascii c en0) (entities_text en) (entities_via true r6 en).
Proof.
  intros c en en0 H. pose proof (resize_entities_ok c false en en0 H) as (en1 & ER & L1 & L2 & L3 & L4).
  destruct H as [[F1 H1] [F2 H2] [F3 H3] [F4 H4]]. rewrite Forall_forall in F1, F2, F3, F4.
  unfold v41_load_entities_ascii, entities_text, entities_good.
  assert (MP : forall x, mono (point_ascii c x)) by (intro; unfold point_ascii, ints_ascii; mono_go).
  assert (ME : forall x, mono (entity_ascii c x)) by (intro; unfold entity_ascii, ints_ascii; mono_go).
  gt_int; [eapply fits_size_ok; [|exact H1]; reflexivity|].
  gt_int; [eapply fits_size_ok; [|exact H2]; reflexivity|].
  gt_int; [eapply fits_size_ok; [|exact H3]; reflexivity|].
  gt_int; [eapply fits_size_ok; [|exact H4]; reflexivity|].
  gt0. eapply GT_bind0; [intros; apply ER|].
  eapply GT_bind; [intro; unfold entity_ascii, ints_ascii; mono_go| |].
  { apply (mapM_GT _ _ _ _ point_good point_text (point_via true r6)); [exact MP|exact L1|intros; apply load_point_GT; auto]. }
  eapply GT_bind; [intro; unfold entity_ascii, ints_ascii; mono_go| |].
  { apply (mapM_GT _ _ _ _ entity_good entity_text (entity_via true r6)); [exact ME|exact L2|intros; apply load_entity_GT; auto]. }
  eapply GT_bind; [intro; unfold entity_ascii, ints_ascii; mono_go| |].
  { apply (mapM_GT _ _ _ _ entity_good entity_text (entity_via true r6)); [exact ME|exact L3|intros; apply load_entity_GT; auto]. }
  gt_ret.
  apply (mapM_GT _ _ _ _ entity_good entity_text (entity_via true r6)); [exact ME|exact L4|intros; apply load_entity_GT; auto].
Qed.

(** ** Data *)

(** What is needed of a data section, whatever the values are. *)
Record data_shape (c : cfg) (per_node : bool) (d : Data) : Prop := {
  ds_strings : fits c sz_string (zlen (string_tags (d_header d)));
  ds_reals : Forall size_ok (real_tags (d_header d));
  ds_reals_mem : fits c sz_double (zlen (real_tags (d_header d)));
  ds_ints : ints_ok c (int_tags (d_header d));
  ds_entries : exists i0 k l, int_tags (d_header d) = i0 :: k :: zlen (d_entries d) :: l /\
                 Forall (entry_ok c false per_node k) (d_entries d);
  ds_entries_mem : fits c sz_DataEntry (zlen (d_entries d)) }.

Lemma load_header_GT : forall c h,
  fits c sz_string (zlen (string_tags h)) -> Forall size_ok (real_tags h) ->
  fits c sz_double (zlen (real_tags h)) -> ints_ok c (int_tags h) ->
  GT (forallb is_finite (real_tags h)) (load_data_header c) (header_text h) (header_via h).
Proof.
  intros c h Hs Hr Hrm [Hi Him]. unfold load_data_header, header_text.
  gt_int; [eapply fits_size_ok; [|exact Hs]; reflexivity|]. gt0.
  destruct (fits_resize bytes c sz_string [] (zlen (string_tags h)) []) as (v1 & E1 & L1);
    [reflexivity|apply zlen_nonneg|exact Hs|].
  eapply GT_bind0; [intros; apply lift_ok; exact E1|].
  eapply GT_step.
  { apply (mapM_RT' _ (fun t => quoted t ++ endl) (fun t => t)); [apply zlen_length; exact L1|].
    intros. apply rd_quoted_RT. apply ws_endl. }
  gt_int; [eapply fits_size_ok; [|exact Hrm]; reflexivity|]. gt0.
  destruct (fits_resize Z c sz_double 0 (zlen (real_tags h)) []) as (v2 & E2 & L2);
    [reflexivity|apply zlen_nonneg|exact Hrm|].
  eapply GT_bind0; [intros; apply lift_ok; exact E2|].
  rewrite <- (andb_true_r (forallb is_finite _)).
  eapply GT_bind; [intro; mono_go| |].
  { apply (mapM_doubles_GT (real_tags h)); [apply spaced_each|exact Hr|apply zlen_length; exact L2]. }
  apply GT_RT.
  eapply RT_size_opt; [eapply fits_size_ok; [|exact Him]; reflexivity|apply ws_endl|discriminate|].
  eapply RT_bind0; [intros; reflexivity|].
  destruct (fits_resize Z c sz_int 0 (zlen (int_tags h)) []) as (v3 & E3 & L3);
    [reflexivity|apply zlen_nonneg|exact Him|].
  eapply RT_bind0; [intros; apply lift_ok; exact E3|].
  eapply RT_last.
  { apply (mapM_RT' _ (fun t => show_Z t ++ endl) (fun t => t)); [apply zlen_length; exact L3|].
    intros x v _ Hv. rewrite Forall_forall in Hi. apply rd_int_RT; auto with rt. discriminate. }
  eapply RT_bind0; [intros; apply assert_good_ok; assumption|]. rewrite !map_id. apply RT_ret.
Qed.

Lemma load_entry_GT : forall c pn k e, int_ok k -> entry_ok c false pn k e ->
  GT (forallb is_finite (de_data e)) (entry_ascii c (to_size k) pn de_default) (entry_text pn e) (entry_via true r6 e).
Proof.
  intros c pn k e Hk [Ht Hn Hl Hv Hm]. unfold entry_ascii, entry_text. apply dbls_ok_b in Hv.
  gt_int. pose proof (fits_size_ok' _ _ _ _ Hm eq_refl) as Hs.
  destruct (fits_resize Z c sz_double 0 (zlen (de_data e)) (de_data de_default)) as (v1 & E1 & L1);
    [reflexivity|apply zlen_nonneg|exact Hm|].
  destruct pn.
  - rewrite <- app_assoc. gt_int; [unfold int_ok, INT_MIN; lia|].
    pose proof (fields_ok c k (de_npe e) (de_data e) Hk Hn Hl Hm) as F. rewrite F.
    eapply GT_bind0; [intros; apply lift_ok; rewrite to_size_id by exact Hs; exact E1|].
    rewrite fill_ok by (symmetry; assumption).
    gt_ret. apply mapM_doubles_GT; [apply spaced_line|exact Hv|apply zlen_length; exact L1].
  - cbn [app].
    assert (F : to_size k = zlen (de_data e)).
    { rewrite Hl. pose proof (zlen_nonneg _ (de_data e)). apply to_size_id.
      unfold int_ok, INT_MAX, two64 in *. lia. }
    rewrite F. eapply GT_bind0; [intros; apply lift_ok; exact E1|].
    eapply GT_last; [intro; mono_go| |].
    { apply mapM_doubles_GT; [apply spaced_line|exact Hv|apply zlen_length; exact L1]. }
    unfold entry_via, via. cbn [de_npe de_default]. rewrite Hn. apply RT_ret.
Qed.

Definition data_good (a : bool) (d : Data) : bool :=
  forallb is_finite (real_tags (d_header d)) &&
  (if a then forallb (fun e => forallb is_finite (de_data e)) (d_entries d) else true).

Lemma load_data_GT : forall c v pn d, data_shape c pn d ->
  GT (data_good true d) (load_data c v false pn) (data_text pn d) (data_via true r6 d).
Proof.
  intros c v pn d [Hs Hr Hrm Hi (i0 & k & l & Ei & He) Hem]. unfold load_data, data_text, data_good.
  eapply GT_bind; [intro; unfold entry_binary, entry_ascii; mono_go| |].
  { apply load_header_GT; auto. }
  cbn [header_via int_tags]. rewrite Ei.
  pose proof (fits_size_ok' _ _ _ _ Hem eq_refl) as Hsz.
  assert (Hk : int_ok k).
  { destruct Hi as [Hi _]. rewrite Ei in Hi. inversion Hi as [|? ? _ Hi']; subst. inversion Hi'; assumption. }
  destruct (fits_resize DataEntry c sz_DataEntry de_default (zlen (d_entries d)) []) as (v1 & E1 & L1);
    [reflexivity|apply zlen_nonneg|exact Hem|].
  eapply GT_bind0; [intros; apply lift_ok; rewrite to_size_id by exact Hsz; exact E1|].
  gt_ret.
  apply (mapM_GT _ _ _ _ (fun e => forallb is_finite (de_data e)) (entry_text pn) (entry_via true r6));
    [intro; unfold entry_ascii; mono_go|apply zlen_length; exact L1|].
  intros x e Hx Hin.
  assert (x = de_default) as ->.
  { unfold resize in E1. destruct (can_hold c sz_DataEntry (zlen (d_entries d)) []); try discriminate.
    injection E1 as <-. rewrite firstn_nil in Hx. apply repeat_spec in Hx. exact Hx. }
  rewrite Forall_forall in He. apply load_entry_GT; auto.
Qed.

(** ** Curves and patches *)

Lemma load_curve_GT : forall c k k0, curve_ok c false k ->
  GT (forallb is_finite (cv_data k)) (load_curve c true k0) (curve_text k) (curve_via true r6 k).
Proof.
  intros c k k0 H. pose proof (curve_entries_ok c k false H) as HE.
  destruct H as [(H1 & H2 & H3 & H4 & H5 & H6) Hl Hv Hm].
  assert (Hd : 3 <= cp_dim (cv_weights k)) by (unfold cp_dim; destruct (0 <? cv_weights k); lia).
  unfold load_curve, curve_text, curve_head. cbv zeta. rewrite <- !app_assoc.
  do 6 gt_int. gt0.
  destruct (fits_resize Z c sz_double 0 (zlen (cv_data k)) (cv_data k0)) as (v1 & E1 & L1);
    [reflexivity|apply zlen_nonneg|exact Hm|].
  eapply GT_bind0; [intros; apply lift_ok; rewrite HE; exact E1|].
  gt_ret.
  unfold size_ok in *. apply mapM_doubles_GT; [|eapply dbls_ok_b; exact Hv|apply zlen_length; exact L1].
  rewrite <- (firstn_skipn (Z.to_nat (cv_ncp k * cp_dim (cv_weights k))) (cv_data k)) at 1.
  apply spaced_app; [|apply spaced_each].
  rewrite <- (concat_rows _ (firstn _ _) (cv_ncp k) (cp_dim (cv_weights k))) at 1;
    [apply spaced_lines|lia|lia|].
  unfold zlen in *. rewrite firstn_length. nia.
Qed.

Lemma load_patch_GT : forall c k k0, patch_ok c false k ->
  GT (forallb is_finite (pt_data k)) (load_patch c true k0) (patch_text k) (patch_via true r6 k).
Proof.
  intros c k k0 H. pose proof (patch_entries_ok c k false H) as HE.
  destruct H as [(H1 & H2 & H3 & H4 & H5 & H6 & H7 & H8) Hl Hv Hm].
  assert (Hd : 3 <= cp_dim (pt_weights k)) by (unfold cp_dim; destruct (0 <? pt_weights k); lia).
  unfold load_patch, patch_text, patch_head. cbv zeta. rewrite <- !app_assoc.
  do 8 gt_int.
  destruct (fits_resize Z c sz_double 0 (zlen (pt_data k)) (pt_data k0)) as (v1 & E1 & L1);
    [reflexivity|apply zlen_nonneg|exact Hm|].
  eapply GT_bind0; [intros; apply lift_ok; rewrite HE; exact E1|].
  gt_ret.
  unfold size_ok in *. apply mapM_doubles_GT; [|eapply dbls_ok_b; exact Hv|apply zlen_length; exact L1].
  rewrite <- (firstn_skipn (Z.to_nat (pt_ncp k * cp_dim (pt_weights k))) (pt_data k)) at 1.
  apply spaced_app; [|apply spaced_each].
  rewrite <- (concat_rows _ (firstn _ _) (pt_ncp k) (cp_dim (pt_weights k))) at 1;
    [apply spaced_lines|lia|lia|].
  unfold zlen in *. rewrite firstn_length. nia.
Qed.

(** ** Sections *)

Lemma save_curve_ab0 : forall c a k, curve_ok c false k -> save_curve c a k = (curve_out a k, Ok tt).
Proof. intros c [|] k H; [eapply save_curve_a|apply save_curve_b]; exact H. Qed.
Lemma save_patch_ab0 : forall c a k, patch_ok c false k -> save_patch c a k = (patch_out a k, Ok tt).
Proof. intros c [|] k H; [eapply save_patch_a|apply save_patch_b]; exact H. Qed.

Definition good_if (a : bool) (l : list dbl) : bool := if a then forallb is_finite l else true.

Lemma load_curve_GT_ab : forall c a k k0, curve_ok c false k ->
  GT (good_if a (cv_data k)) (load_curve c a k0) (curve_out a k) (curve_via a r6 k).
Proof. intros c [|] k k0 H; [apply load_curve_GT|apply load_curve_b]; exact H. Qed.
Lemma load_patch_GT_ab : forall c a k k0, patch_ok c false k ->
  GT (good_if a (pt_data k)) (load_patch c a k0) (patch_out a k) (patch_via a r6 k).
Proof. intros c [|] k k0 H; [apply load_patch_GT|apply load_patch_b]; exact H. Qed.


Lemma GT_map_ret : forall g A B (m : M A) (f : A -> B) t a, GT g m t a -> GT g (bind m (fun x => ret (f x))) t (f a).
Proof. intros. eapply GT_last; [intro; apply mono_ret|eassumption|apply RT_ret]. Qed.

Lemma entities_GPIECE : forall c a s spec, fmt41 a s -> fmt41 a spec -> entities_ok c false (entities s) ->
  entities spec = ents_default ->
  GPIECE (if a then entities_good (entities s) else true) c
    (if negb (entities_empty (entities s)) then save_entities s else wret)
    spec (set_entities (entities_via a r6 (entities s)) spec).
Proof.
  intros c a s spec F F' H H0. destruct a; [|apply PIECE_G, (entities_PIECE c false); assumption].
  destruct F as [Hv Ht], F' as [Hv' Ht']. destruct (negb (entities_empty (entities s))) eqn:E.
  - unfold save_entities. cbv zeta. rewrite Hv, Ht. cbn [bytes_eqb].
    change (bytes_eqb v41s v22s) with false. change (bytes_eqb v41s v41s) with true. cbv iota.
    cbn [ftype Z.eqb].
    apply (section_GPIECE _ c (str "$Entities") _ (entities_text (entities s))); [tok|reflexivity| |].
    + apply save_entities_a.
    + change (dispatch c (str "$Entities") spec) with (load_entities c spec). unfold load_entities.
      rewrite Hv', Ht'. change (bytes_eqb v41s v41s) with true. cbn [ftype Z.eqb]. cbv iota zeta.
      apply (GT_map_ret _ _ _ _ (fun en => set_entities en spec)). apply load_entities_GT. exact H.
  - apply negb_false_iff in E. unfold entities_empty in E. rewrite !andb_true_iff in E.
    destruct E as [[[E1 E2] E3] E4]. apply Z.eqb_eq in E1, E2, E3, E4.
    assert (Z0 : forall A (l : list A), zlen l = 0 -> l = []).
    { intros A [|x l] Q; [reflexivity|]. unfold zlen in Q. cbn [List.length] in Q. lia. }
    apply Z0 in E1, E2, E3, E4. unfold entities_via, entities_good. rewrite E1, E2, E3, E4. cbn [map forallb andb].
    replace (set_entities _ spec) with spec; [apply GPIECE_ret|].
    destruct spec; cbn in *; subst; reflexivity.
Qed.

Definition nodes_good (n : Nodes) : bool :=
  if n_num_nodes n =? 0 then true else forallb (fun b => forallb is_finite (nb_data b)) (n_blocks n).

Lemma nodes_GPIECE : forall c a s spec, fmt41 a s -> fmt41 a spec ->
  size_ok (n_num_nodes (nodes s)) -> (n_num_nodes (nodes s) <> 0 -> nodes_ok c false (nodes s)) ->
  (n_num_nodes (nodes s) <> 0 -> a = true -> ndebug c = false ->
     Forall (fun b => 0 <= nb_parametric b <= 3) (n_blocks (nodes s))) ->
  nodes spec = n_default ->
  GPIECE (if a then nodes_good (nodes s) else true) c (if 0 <? n_num_nodes (nodes s) then save_nodes s else wret)
    spec (set_nodes (nodes_via a r6 (nodes s)) spec).
Proof.
  intros c a s spec F F' Hn H H3 H0. destruct a; [|apply PIECE_G, (nodes_PIECE c false); assumption].
  destruct F as [Hv Ht], F' as [Hv' Ht']. unfold nodes_via, nodes_good.
  destruct (0 <? n_num_nodes (nodes s)) eqn:E.
  - apply Z.ltb_lt in E. replace (n_num_nodes (nodes s) =? 0) with false by (symmetry; apply Z.eqb_neq; lia).
    specialize (H ltac:(lia)). specialize (H3 ltac:(lia) eq_refl).
    unfold save_nodes. cbv zeta. rewrite Hv, Ht. change (bytes_eqb v41s v41s) with true. cbv iota.
    cbn [ftype Z.eqb].
    apply (section_GPIECE _ c (str "$Nodes") _ (nodes_text (nodes s))); [tok|reflexivity| |].
    + eapply save_nodes_a; exact H.
    + change (dispatch c (str "$Nodes") spec) with (load_nodes c spec). unfold load_nodes. cbv zeta.
      rewrite Hv', Ht'. change (bytes_eqb v41s v41s) with true. cbn [ftype Z.eqb]. cbv iota.
      apply (GT_map_ret _ _ _ _ (fun en => set_nodes en spec)). apply load_nodes_GT; assumption.
  - apply Z.ltb_ge in E. destruct Hn as [Hn _].
    replace (n_num_nodes (nodes s) =? 0) with true by (symmetry; apply Z.eqb_eq; lia).
    replace (set_nodes _ spec) with spec; [apply GPIECE_ret|].
    destruct spec; cbn in *; subst; reflexivity.
Qed.

(** ** Data sections, of either version *)

Lemma RF_header_data : forall c v b pn t1 t2, RF (load_data_header c) t1 -> RF (load_data c v b pn) (t1 ++ t2).
Proof.
  intros c v b pn t1 t2 H. unfold load_data. apply RF_bind; [|exact H].
  intro. unfold entry_binary, entry_ascii. mono_go.
Qed.

Lemma shape_ok : forall c a pn d, data_shape c pn d -> data_good a d = true -> data_ok c a pn d.
Proof.
  intros c a pn d [Hs Hr Hrm Hi (i0 & k & l & Ei & He) Hem] G. unfold data_good in G.
  apply andb_true_iff in G. destruct G as [G1 G2]. rewrite forallb_forall in G1.
  split; try assumption.
  - apply Forall_forall. intros x Hx. rewrite Forall_forall in Hr. split; [auto|].
    apply is_finite_finite; auto.
  - exists i0, k, l. split; [exact Ei|]. apply Forall_forall. intros e Hin. rewrite Forall_forall in He.
    destruct (He e Hin) as [Q1 Q2 Q3 Q4 Q5]. split; try assumption.
    apply Forall_forall. intros x Hx. rewrite Forall_forall in Q4. destruct (Q4 x Hx) as [S _].
    split; [exact S|]. intros ->. rewrite forallb_forall in G2. specialize (G2 e Hin).
    rewrite forallb_forall in G2. apply is_finite_finite; auto.
Qed.

Section DataKind.
Variables (c : cfg) (v : bytes) (a : bool) (name : bytes) (pn : bool).
Variables (get : MshSpec -> list Data) (set : list Data -> MshSpec -> MshSpec).
Hypothesis Hv : v = v41s \/ v = v22s.
Hypothesis name_token : token (x24 :: name).
Hypothesis name_known : known_marker (x24 :: name) = true.
Hypothesis disp : forall spec, dispatch c (x24 :: name) spec =
  (d <- load_data c (version (mesh_format spec)) (0 <? file_type (mesh_format spec)) pn ;;
   ret (set (get spec ++ [d]) spec)).
Hypothesis get_set : forall l spec, get (set l spec) = l.
Hypothesis set_set : forall l l' spec, set l (set l' spec) = set l spec.
Hypothesis set_get : forall spec, set (get spec) spec = spec.
Hypothesis fmt_set : forall l spec, mesh_format (set l spec) = mesh_format spec.

Lemma data_GPIECE1 : forall s spec d, fmt v a s -> fmt v a spec -> data_shape c pn d ->
  GPIECE (data_good a d) c (out (str "$" ++ name ++ endl) +++
           save_data (version (mesh_format s)) (0 <? file_type (mesh_format s)) pn d +++
           out (str "$End" ++ name ++ endl))
    spec (set (get spec ++ [data_via a r6 d]) spec).
Proof.
  intros s spec d F F' H. destruct (data_good a d) eqn:G.
  - apply PIECE_G. apply (data_PIECE1 c v a name pn get set Hv name_token name_known disp); auto.
    apply shape_ok; assumption.
  - destruct F as [Fv Ft], F' as [Fv' Ft']. rewrite Fv, Ft.
    change (str "$" ++ name ++ endl) with ((x24 :: name) ++ endl).
    change (str "$End" ++ name ++ endl) with (str "$End" ++ tl (x24 :: name) ++ endl).
    destruct a; cbn [ftype Z.ltb Z.compare].
    + eapply section_GPIECE; [exact name_token|exact name_known|apply save_data_a|].
      rewrite disp, Fv', Ft'. cbn [ftype Z.ltb Z.compare].
      apply (GT_map_ret _ _ _ _ (fun d => set (get spec ++ [d]) spec)). pose proof (load_data_GT c v pn d H) as Q.
      rewrite G in Q. exact Q.
    + eapply section_GPIECE; [exact name_token|exact name_known|apply save_data_b; exact Hv|].
      rewrite disp, Fv', Ft'. cbn [ftype Z.ltb Z.compare].
      apply (GT_map_ret _ _ _ _ (fun d => set (get spec ++ [d]) spec)). cbn [GT]. apply RF_header_data.
      unfold data_good in G. rewrite andb_true_r in G. destruct H as [Hs Hr Hrm Hi _ _].
      pose proof (load_header_GT c (d_header d) Hs Hr Hrm Hi) as Q. rewrite G in Q. exact Q.
Qed.

Lemma data_GPIECE : forall s ds spec, fmt v a s -> fmt v a spec -> Forall (data_shape c pn) ds ->
  GPIECE (forallb (data_good a) ds) c (save_data_sections name pn s ds) spec (set (get spec ++ map (data_via a r6) ds) spec).
Proof.
  intros s ds. unfold save_data_sections. induction ds as [|d ds IH]; intros spec F F' H.
  - cbn [wfor map forallb]. rewrite app_nil_r, set_get. apply GPIECE_ret.
  - inversion H as [|? ? Hd Hds]; subst. cbn [wfor map forallb]. eapply GPIECE_seq.
    + apply data_GPIECE1; eassumption.
    + specialize (IH (set (get spec ++ [data_via a r6 d]) spec) F).
      rewrite get_set, set_set in IH. rewrite <- app_assoc in IH. apply IH; [|exact Hds].
      destruct F'. split; rewrite fmt_set; assumption.
Qed.

Lemma data_GPIECE_if : forall s ds spec, fmt v a s -> fmt v a spec -> Forall (data_shape c pn) ds ->
  get spec = [] ->
  GPIECE (forallb (data_good a) ds) c (if 0 <? zlen ds then save_data_sections name pn s ds else wret)
    spec (set (map (data_via a r6) ds) spec).
Proof.
  intros s ds spec F F' H H0. destruct (0 <? zlen ds) eqn:E.
  - pose proof (data_GPIECE s ds spec F F' H) as P. rewrite H0 in P. exact P.
  - apply Z.ltb_ge in E. destruct ds as [|d ds]; [|unfold zlen in E; cbn [List.length] in E; lia].
    cbn [map forallb]. rewrite <- H0, set_get. apply GPIECE_ret.
Qed.
End DataKind.

Section DataKinds.
Variables (c : cfg) (v : bytes) (a : bool) (s spec : MshSpec).
Hypothesis Hv : v = v41s \/ v = v22s.
Hypothesis F : fmt v a s.
Hypothesis F' : fmt v a spec.

Lemma node_data_GPIECE : Forall (data_shape c false) (node_data s) -> node_data spec = [] ->
  GPIECE (forallb (data_good a) (node_data s)) c (if 0 <? zlen (node_data s) then save_node_data s else wret)
    spec (set_node_data (map (data_via a r6) (node_data s)) spec).
Proof.
  intros H H0. unfold save_node_data.
  apply (data_GPIECE_if c v a (str "NodeData") false node_data set_node_data); auto; try reflexivity.
  - tok.
  - intros []; reflexivity.
Qed.

Lemma element_data_GPIECE : Forall (data_shape c false) (element_data s) -> element_data spec = [] ->
  GPIECE (forallb (data_good a) (element_data s)) c (if 0 <? zlen (element_data s) then save_element_data s else wret)
    spec (set_element_data (map (data_via a r6) (element_data s)) spec).
Proof.
  intros H H0. unfold save_element_data.
  apply (data_GPIECE_if c v a (str "ElementData") false element_data set_element_data); auto; try reflexivity.
  - tok.
  - intros []; reflexivity.
Qed.

Lemma element_node_data_GPIECE : Forall (data_shape c true) (element_node_data s) -> element_node_data spec = [] ->
  GPIECE (forallb (data_good a) (element_node_data s)) c (if 0 <? zlen (element_node_data s) then save_element_node_data s else wret)
    spec (set_element_node_data (map (data_via a r6) (element_node_data s)) spec).
Proof.
  intros H H0. unfold save_element_node_data.
  apply (data_GPIECE_if c v a (str "ElementNodeData") true element_node_data set_element_node_data); auto; try reflexivity.
  - tok.
  - intros []; reflexivity.
Qed.
End DataKinds.

(** ** Splines *)

Lemma curves_GPIECE : forall c v a s spec, nanospline c = true -> fmt v a s -> fmt v a spec ->
  Forall (curve_ok c false) (curves s) -> fits c sz_Curve (zlen (curves s)) -> curves spec = [] ->
  GPIECE (forallb (fun k => good_if a (cv_data k)) (curves s)) c (if 0 <? zlen (curves s) then save_curves c s else wret)
    spec (set_curves (map (curve_via a r6) (curves s)) spec).
Proof.
  intros c v a s spec Hns [Fv Ft] [Fv' Ft'] H Hm H0. destruct (0 <? zlen (curves s)) eqn:E.
  - unfold save_curves. rewrite Ft, ftype_eqb, wassoc4. rewrite Forall_forall in H.
    eapply (section_GPIECE _ c (str "$Curves")); [tok|reflexivity| |].
    + apply wseq_ok; [apply out_ok|]. apply wfor_ok. intros k Hk. apply save_curve_ab0. auto.
    + change (dispatch c (str "$Curves") spec) with (load_curves c spec). unfold load_curves.
      rewrite Hns, Ft', ftype_eqb. rewrite <- app_assoc.
      gt_int; [eapply fits_size_ok; [|exact Hm]; reflexivity|]. gt0.
      destruct (fits_resize Curve c sz_Curve cv_default (zlen (curves s)) (curves spec)) as (v1 & E1 & L1);
        [reflexivity|apply zlen_nonneg|exact Hm|].
      eapply GT_bind0; [intros; apply lift_ok; exact E1|].
      gt_ret. apply mapM_GT; [intro; unfold load_curve; mono_go|apply zlen_length; exact L1|].
      intros; apply load_curve_GT_ab; auto.
  - apply Z.ltb_ge in E. destruct (curves s) as [|d ds]; [|unfold zlen in E; cbn [List.length] in E; lia].
    replace (set_curves _ spec) with spec; [apply GPIECE_ret|].
    destruct spec; cbn in *; subst; reflexivity.
Qed.

Lemma patches_GPIECE : forall c v a s spec, nanospline c = true -> fmt v a s -> fmt v a spec ->
  Forall (patch_ok c false) (patches s) -> fits c sz_Patch (zlen (patches s)) -> patches spec = [] ->
  GPIECE (forallb (fun k => good_if a (pt_data k)) (patches s)) c (if 0 <? zlen (patches s) then save_patches c s else wret)
    spec (set_patches (map (patch_via a r6) (patches s)) spec).
Proof.
  intros c v a s spec Hns [Fv Ft] [Fv' Ft'] H Hm H0. destruct (0 <? zlen (patches s)) eqn:E.
  - unfold save_patches. rewrite Ft, ftype_eqb, wassoc4. rewrite Forall_forall in H.
    eapply (section_GPIECE _ c (str "$Patches")); [tok|reflexivity| |].
    + apply wseq_ok; [apply out_ok|]. apply wfor_ok. intros k Hk. apply save_patch_ab0. auto.
    + change (dispatch c (str "$Patches") spec) with (load_patches c spec). unfold load_patches.
      rewrite Hns, Ft', ftype_eqb. rewrite <- app_assoc.
      gt_int; [eapply fits_size_ok; [|exact Hm]; reflexivity|]. gt0.
      destruct (fits_resize Patch c sz_Patch pt_default (zlen (patches s)) (patches spec)) as (v1 & E1 & L1);
        [reflexivity|apply zlen_nonneg|exact Hm|].
      eapply GT_bind0; [intros; apply lift_ok; exact E1|].
      gt_ret. apply mapM_GT; [intro; unfold load_patch; mono_go|apply zlen_length; exact L1|].
      intros; apply load_patch_GT_ab; auto.
  - apply Z.ltb_ge in E. destruct (patches s) as [|d ds]; [|unfold zlen in E; cbn [List.length] in E; lia].
    replace (set_patches _ spec) with spec; [apply GPIECE_ret|].
    destruct spec; cbn in *; subst; reflexivity.
Qed.

Definition splines_good (c : cfg) (a : bool) (s : MshSpec) : bool :=
  if nanospline c then
    forallb (fun k => good_if a (cv_data k)) (curves s) && forallb (fun k => good_if a (pt_data k)) (patches s)
  else true.

Lemma splines_GPIECE : forall c v a s spec, fmt v a s -> fmt v a spec ->
  (nanospline c = true -> splines_ok c false s) -> curves spec = [] -> patches spec = [] ->
  GPIECE (splines_good c a s) c
    (if nanospline c then
       save_nanospline_format s +++
       (if 0 <? zlen (curves s) then save_curves c s else wret) +++
       (if 0 <? zlen (patches s) then save_patches c s else wret)
     else wret) spec (ns_via c a s spec).
Proof.
  intros c v a s spec F F' H H1 H2. unfold ns_via, splines_good. destruct (nanospline c) eqn:N; [|apply GPIECE_ret].
  destruct (H eq_refl) as [Hw [Hc Hcm] [Hp Hpm]].
  apply (GPIECE_seq true _ _ _ _ _ (set_ns_version (ns_version s) spec)); [apply PIECE_G, ns_format_PIECE; exact Hw|].
  eapply GPIECE_seq.
  - eapply (curves_GPIECE c v a); auto.
  - eapply (patches_GPIECE c v a); auto.
Qed.
