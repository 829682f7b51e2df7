(** Saving what was loaded from a saved file. *)

From Verif Require Import Model.Save Spec.Consistent22 Spec.Rounding Proofs.WriteP
  Proofs.RtBase Proofs.RtStep Proofs.Rt41A Proofs.Rt41B Proofs.Rt41 Proofs.PostP Proofs.ElemP Proofs.BytesP Proofs.DblP Proofs.DecP Proofs.ShowP
  Proofs.RoundP Proofs.Rt22 Proofs.Final Proofs.Final22 Proofs.ValidRt Proofs.ConvertP Proofs.AgreeP.
Ltac Zify.zify_post_hook ::= idtac.

(** ** Doubles *)

Lemma show_mag_again : forall a, 0 <= a < inf_mag -> two52 <= a -> show_mag (ascii_mag a) = show_mag a.
Proof.
  intros a Ha Hn. unfold ascii_mag. destruct (a =? 0) eqn:E0; [apply Z.eqb_eq in E0; subst; reflexivity|].
  destruct (sci6 (mag_units a)) as [D X] eqn:ES.
  pose proof (mag_units_range a ltac:(lia)) as R. apply Z.eqb_neq in E0.
  pose proof (sci6_spec _ _ _ R ES) as (HD & HX & Herr).
  pose proof (dec_round_finite a D X ltac:(lia) ES) as HF.
  assert (M : mag_units two52 <= mag_units a).
  { destruct (Z.eq_dec a two52) as [->|]; [lia|]. apply Z.lt_le_incl. apply mag_units_mono.
    pose proof two52_pos. lia. }
  change (mag_units two52) with two52 in M.
  assert (HX2 : -317 <= X).
  { assert (~ X <= -318); [|lia]. intro HC.
    pose proof (U_le (X - 5) (-323) ltac:(lia) ltac:(lia)) as HU.
    assert (B : U (-323) <= 3 * P400) by (apply Z.leb_le; vm_compute; reflexivity).
    pose proof P400_pos as HP. unfold two52 in M. nia. }
  pose proof (sci6_dec_round D X HD HX2 (proj2 HF)) as SD.
  assert (Hz : dec_round D X <> 0).
  { intro Z0. rewrite Z0 in SD. change (mag_units 0) with 0 in SD. vm_compute in SD. injection SD as SD1 SD2. lia. }
  assert (S : forall b, 0 < b < inf_mag -> sci6 (mag_units b) = (D, X) -> show_mag b = show_g D X).
  { intros b Hb E. unfold show_mag. replace (b =? 0) with false by (symmetry; apply Z.eqb_neq; lia).
    replace (b =? inf_mag) with false by (symmetry; apply Z.eqb_neq; lia).
    replace (inf_mag <? b) with false by (symmetry; apply Z.ltb_ge; lia). rewrite E. reflexivity. }
  rewrite (S a ltac:(lia) ES). apply S; [lia|exact SD].
Qed.

Lemma show_again : forall x, size_ok x -> finite x -> normal x \/ r6 x = x -> show_double (r6 x) = show_double x.
Proof.
  intros x H1 H2 [H|H]; [|rewrite H; reflexivity].
  pose proof (normal_mag x H1 H2 H) as M. pose proof (finite_mag x H1 H2) as F.
  assert (IF : is_finite x = true) by (apply Z.ltb_lt; lia).
  unfold show_double. rewrite ascii_round_dneg, ascii_round_dmag by assumption.
  rewrite show_mag_again by lia. reflexivity.
Qed.

Lemma round_again : forall x, size_ok x -> finite x -> normal x -> r6 (r6 x) = r6 x.
Proof.
  intros x H1 H2 H. pose proof (normal_mag x H1 H2 H) as M. pose proof (finite_mag x H1 H2) as F.
  apply ascii_round_idem; [exact H1|apply Z.ltb_lt; lia|right; exact M].
Qed.

(** ** Writers *)

Lemma wlet_at_map : forall A (f : A -> A) (l : list A) i (g : A -> W),
  (forall x, In x l -> g (f x) = g x) -> wlet (at_ (map f l) i) g = wlet (at_ l i) g.
Proof.
  intros A f l i g H. unfold at_. destruct (i <? 0); [reflexivity|]. rewrite nth_error_map.
  destruct (nth_error l (Z.to_nat i)) as [x|] eqn:E; [|reflexivity]. cbn [option_map wlet]. apply H.
  eapply nth_error_In. exact E.
Qed.

Lemma wfor_map : forall A B (f : A -> B) l (g : B -> W), wfor (map f l) g = wfor l (fun x => g (f x)).
Proof. intros. induction l as [|x l IH]; [reflexivity|]. cbn [map wfor]. rewrite IH. reflexivity. Qed.

Definition shown (r : dbl -> dbl) (l : list dbl) : Prop := forall x, In x l -> show_double (r x) = show_double x.

Lemma le4_tag32 : forall t, le 4 (tag32 t) = le 4 t.
Proof.
  intro t. rewrite <- (le_unle (le 4 (tag32 t))), <- (le_unle (le 4 t)), !le_length, !unle_le.
  change (256 ^ Z.of_nat 4) with (2 ^ 32). rewrite tag32_mod. reflexivity.
Qed.

Lemma out_doubles_map : forall r l, shown r l -> out_doubles (map r l) = out_doubles l.
Proof.
  intros r l. induction l as [|x l IH]; intro H; [reflexivity|].
  assert (X : show_double (r x) = show_double x) by (apply H; left; reflexivity).
  assert (Y : out_doubles (map r l) = out_doubles l) by (apply IH; intros y Hy; apply H; right; exact Hy).
  destruct l as [|y l]; cbn [map out_doubles] in *; rewrite X; [reflexivity|]. rewrite Y. reflexivity.
Qed.

Section Writers.
Variables (r : dbl -> dbl).

Lemma header_again : forall a d, shown r (real_tags (d_header d)) ->
  save_data_header (d_header (data_via a r d)) = save_data_header (d_header d).
Proof.
  intros a d H. unfold save_data_header. cbn [data_via d_header string_tags real_tags int_tags].
  rewrite zlen_map, wfor_map.
  rewrite (wfor_ext _ (real_tags (d_header d)) (fun x => out (show_double (r x) ++ endl)) (fun t => out (show_double t ++ endl))).
  - reflexivity.
  - intros x Hx. rewrite (H x Hx). reflexivity.
Qed.

Lemma data_binary_again : forall v e d, shown r (real_tags (d_header d)) ->
  save_data v true e (data_via false r d) = save_data v true e d.
Proof.
  intros v e d H. unfold save_data. rewrite header_again by exact H. cbn [data_via d_entries]. rewrite wfor_map.
  rewrite (wfor_ext _ (d_entries d) (fun x => save_entry_binary e (entry_via false r x)) (save_entry_binary e)); [reflexivity|].
  intros x _. unfold save_entry_binary. cbn [entry_via de_tag de_npe de_data]. rewrite map_via_false, le4_tag32. reflexivity.
Qed.

Lemma data_ascii_again : forall v e d, shown r (real_tags (d_header d)) -> shown r (flat_map de_data (d_entries d)) ->
  save_data v false e (data_via true r d) = save_data v false e d.
Proof.
  intros v e d H HD. unfold save_data. rewrite header_again by exact H. cbn [data_via d_entries]. rewrite wfor_map.
  rewrite (wfor_ext _ (d_entries d) (fun x => save_entry_ascii e (entry_via true r x)) (save_entry_ascii e)); [reflexivity|].
  intros x Hx. unfold save_entry_ascii. cbn [entry_via de_tag de_npe de_data]. rewrite map_via_true, out_doubles_map; [reflexivity|].
  intros y Hy. apply HD. apply in_flat_map. eauto.
Qed.

Lemma node_block_ascii_again : forall b, shown r (nb_data b) ->
  v41_save_node_block_ascii (node_block_via true r b) = v41_save_node_block_ascii b.
Proof.
  intros b H. unfold v41_save_node_block_ascii. cbn [node_block_via nb_dim nb_tag nb_parametric nb_num nb_tags nb_data].
  f_equal. f_equal. destruct (entries_per_node (nb_parametric b) (nb_dim b)); try reflexivity. cbn [wlet].
  apply wfor_ext. intros j _. apply wfor_ext. intros k _. apply wlet_at_map.
  intros x Hx. unfold via. rewrite (H x Hx). reflexivity.
Qed.

Lemma nodes_ascii_again : forall n, (forall b, In b (n_blocks n) -> shown r (nb_data b)) ->
  n_num_nodes n <> 0 -> v41_save_nodes_ascii (nodes_via true r n) = v41_save_nodes_ascii n.
Proof.
  intros n H N. unfold nodes_via. replace (n_num_nodes n =? 0) with false by (symmetry; apply Z.eqb_neq; exact N).
  unfold v41_save_nodes_ascii. cbn [n_num_blocks n_num_nodes n_min n_max n_blocks]. f_equal.
  apply wfor_ext. intros i _. apply wlet_at_map. intros b Hb. apply node_block_ascii_again, H, Hb.
Qed.

Lemma point_again : forall p, shown r [pe_x p; pe_y p; pe_z p] ->
  save_point_ascii (point_via true r p) = save_point_ascii p.
Proof.
  intros p H. unfold save_point_ascii. cbn [point_via pe_tag pe_x pe_y pe_z pe_phys via].
  rewrite !H by (cbn [In]; auto). reflexivity.
Qed.

Lemma entity_again : forall e, shown r [en_min_x e; en_min_y e; en_min_z e; en_max_x e; en_max_y e; en_max_z e] ->
  save_entity_ascii (entity_via true r e) = save_entity_ascii e.
Proof.
  intros e H. unfold save_entity_ascii.
  cbn [entity_via en_tag en_min_x en_min_y en_min_z en_max_x en_max_y en_max_z en_phys en_bnd via].
  rewrite !H by (cbn [In]; auto 10). reflexivity.
Qed.

Lemma entities_ascii_again : forall en,
  shown r (flat_map (fun p => [pe_x p; pe_y p; pe_z p]) (points en)) ->
  shown r (flat_map (fun e => [en_min_x e; en_min_y e; en_min_z e; en_max_x e; en_max_y e; en_max_z e])
    (curves_e en ++ surfaces_e en ++ volumes_e en)) ->
  v41_save_entities_ascii (entities_via true r en) = v41_save_entities_ascii en.
Proof.
  intros en HP HE. unfold v41_save_entities_ascii. cbn [entities_via points curves_e surfaces_e volumes_e].
  rewrite !zlen_map, !wfor_map.
  rewrite (wfor_ext _ (points en) (fun x => save_point_ascii (point_via true r x)) save_point_ascii).
  - assert (Q : forall l, (forall e, In e l -> In e (curves_e en ++ surfaces_e en ++ volumes_e en)) ->
      wfor l (fun x => save_entity_ascii (entity_via true r x)) = wfor l save_entity_ascii).
    { intros l Hl. apply wfor_ext. intros e He. apply entity_again. intros x Hx. apply HE. apply in_flat_map. eauto. }
    rewrite (Q (curves_e en)), (Q (surfaces_e en)), (Q (volumes_e en)); [reflexivity|..]; intros e He.
    + apply in_or_app. right. apply in_or_app. auto.
    + apply in_or_app. right. apply in_or_app. auto.
    + apply in_or_app. auto.
  - intros p Hp. apply point_again. intros x Hx. apply HP. apply in_flat_map. eauto.
Qed.

Lemma curve_ascii_again : forall c k, shown r (cv_data k) -> save_curve c true (curve_via true r k) = save_curve c true k.
Proof.
  intros c k H. unfold save_curve. cbn [curve_via cv_tag cv_type cv_degree cv_ncp cv_nknots cv_weights cv_data].
  rewrite zlen_map. f_equal. f_equal. f_equal.
  - apply wfor_ext. intros j _. apply wfor_ext. intros i _. apply wlet_at_map.
    intros x Hx. unfold via. rewrite (H x Hx). reflexivity.
  - apply wfor_ext. intros j _. apply wlet_at_map.
    intros x Hx. unfold via. rewrite (H x Hx). reflexivity.
Qed.

Lemma patch_ascii_again : forall c k, shown r (pt_data k) -> save_patch c true (patch_via true r k) = save_patch c true k.
Proof.
  intros c k H. unfold save_patch.
  cbn [patch_via pt_tag pt_type pt_degu pt_degv pt_ncp pt_nu pt_nv pt_weights pt_data].
  rewrite zlen_map. f_equal. f_equal. f_equal; [|f_equal].
  - apply wfor_ext. intros j _. apply wfor_ext. intros i _. apply wlet_at_map.
    intros x Hx. unfold via. rewrite (H x Hx). reflexivity.
  - apply wfor_ext. intros j _. apply wlet_at_map.
    intros x Hx. unfold via. rewrite (H x Hx). reflexivity.
  - apply wfor_ext. intros j _. apply wlet_at_map.
    intros x Hx. unfold via. rewrite (H x Hx). reflexivity.
Qed.
End Writers.

(** ** Version 4.1 *)

Notation settles l := (Forall (fun x => normal x \/ r6 x = x) l).

Lemma settles_shown : forall l, Forall (fun x => size_ok x /\ finite x) l -> settles l -> shown r6 l.
Proof.
  intros l H S x Hx. rewrite Forall_forall in H, S. destruct (H x Hx). apply show_again; auto.
Qed.

Lemma ok_values : forall l, Forall (dbl_ok true) l -> Forall (fun x => size_ok x /\ finite x) l.
Proof. intros l H. eapply Forall_impl; [|exact H]. intros x [H1 H2]. auto. Qed.

Lemma settles_in : forall A (f : A -> list dbl) l x, settles (flat_map f l) -> In x l -> settles (f x).
Proof.
  intros A f l x H Hx. rewrite Forall_forall in *. intros y Hy. apply H. apply in_flat_map. eauto.
Qed.

Lemma settles_flat : forall A (f : A -> list dbl) l, settles (flat_map f l) ->
  (forall x, In x l -> Forall (fun y => size_ok y /\ finite y) (f x)) -> shown r6 (flat_map f l).
Proof.
  intros A f l S H. apply settles_shown; [|exact S]. apply Forall_forall. intros y Hy. apply in_flat_map in Hy.
  destruct Hy as (x & Hx & Hy). specialize (H x Hx). rewrite Forall_forall in H. auto.
Qed.

Lemma sections_again : forall name e s s' ds a, mesh_format s' = mesh_format s ->
  file_type (mesh_format s) = (if a : bool then 0 else 1) ->
  (forall d, In d ds -> shown r6 (real_tags (d_header d))) ->
  (a = true -> forall d, In d ds -> shown r6 (flat_map de_data (d_entries d))) ->
  save_data_sections name e s' (map (data_via a r6) ds) = save_data_sections name e s ds.
Proof.
  intros name e s s' ds a Hf Ht HR HE. unfold save_data_sections. rewrite Hf, wfor_map, Ht. apply wfor_ext.
  intros d Hd. f_equal. f_equal. destruct a; cbn [Z.ltb Z.compare].
  - apply data_ascii_again; auto.
  - apply data_binary_again; auto.
Qed.

Record written (a : bool) (s : MshSpec) : Prop := {
  wr_reals : forall d, In d (all_data s) -> shown r6 (real_tags (d_header d));
  wr_data : a = true -> forall d, In d (all_data s) -> shown r6 (flat_map de_data (d_entries d)) }.

Lemma datas_again : forall s s' a, mesh_format s' = mesh_format s ->
  file_type (mesh_format s) = (if a : bool then 0 else 1) -> written a s ->
  node_data s' = map (data_via a r6) (node_data s) -> element_data s' = map (data_via a r6) (element_data s) ->
  element_node_data s' = map (data_via a r6) (element_node_data s) ->
  (if 0 <? zlen (node_data s') then save_node_data s' else wret) = (if 0 <? zlen (node_data s) then save_node_data s else wret) /\
  (if 0 <? zlen (element_data s') then save_element_data s' else wret) =
    (if 0 <? zlen (element_data s) then save_element_data s else wret) /\
  (if 0 <? zlen (element_node_data s') then save_element_node_data s' else wret) =
    (if 0 <? zlen (element_node_data s) then save_element_node_data s else wret).
Proof.
  intros s s' a Hf Ht [W1 W2] E1 E2 E3. rewrite E1, E2, E3, !zlen_map.
  unfold save_node_data, save_element_data, save_element_node_data. rewrite E1, E2, E3.
  unfold all_data in *. split; [|split]; (rewrite (sections_again _ _ s s' _ a Hf Ht); [reflexivity|..]);
    intros; try (apply W1); try (apply W2; [assumption|]); apply in_or_app; auto; right; apply in_or_app; auto.
Qed.

Lemma data_written : forall c a s, Forall (data_ok c a false) (node_data s) -> Forall (data_ok c a false) (element_data s) ->
  Forall (data_ok c a true) (element_node_data s) -> settles (text_doubles a s) -> written a s.
Proof.
  intros c a s H1 H2 H3 S. unfold text_doubles in S. apply Forall_app in S. destruct S as [S1 S2].
  assert (D : forall d, In d (all_data s) -> exists pn, data_ok c a pn d).
  { intros d Hd. rewrite Forall_forall in *. apply in_app_or in Hd. destruct Hd as [Hd|Hd]; [eauto|].
    apply in_app_or in Hd. destruct Hd; eauto. }
  split.
  - intros d Hd. destruct (D d Hd) as (pn & DO). apply settles_shown; [exact (do_reals _ _ _ _ DO)|].
    exact (settles_in _ _ _ _ S1 Hd).
  - intros -> d Hd. destruct (D d Hd) as (pn & DO). rewrite !Forall_app in S2. destruct S2 as (_ & _ & _ & S2 & _).
    apply settles_flat; [exact (settles_in _ (fun d => flat_map de_data (d_entries d)) _ _ S2 Hd)|].
    intros e He. destruct (do_entries _ _ _ _ DO) as (i0 & k & l & _ & DE). rewrite Forall_forall in DE.
    apply ok_values. exact (do_vals _ _ _ _ _ (DE e He)).
Qed.

Lemma curves_again : forall c a s s', file_type (mesh_format s) = (if a : bool then 0 else 1) ->
  mesh_format s' = mesh_format s -> curves s' = map (curve_via a r6) (curves s) ->
  patches s' = map (patch_via a r6) (patches s) -> splines_ok c a s -> settles (text_doubles a s) ->
  save_curves c s' = save_curves c s /\ save_patches c s' = save_patches c s.
Proof.
  intros c a s s' Ht Hf EC EP [_ [OC _] [OP _]] S. unfold save_curves, save_patches.
  rewrite EC, EP, Hf, Ht, !zlen_map, !wfor_map. destruct a.
  - unfold text_doubles in S. rewrite !Forall_app in S. destruct S as (_ & _ & _ & _ & _ & S1 & S2).
    change (0 =? 0) with true. rewrite Forall_forall in OC, OP.
    rewrite (wfor_ext _ (curves s) (fun x => save_curve c true (curve_via true r6 x)) (save_curve c true)).
    rewrite (wfor_ext _ (patches s) (fun x => save_patch c true (patch_via true r6 x)) (save_patch c true)).
    + split; reflexivity.
    + intros k Hk. apply patch_ascii_again. apply settles_shown; [|exact (settles_in _ _ _ _ S2 Hk)].
      apply ok_values. exact (pao_vals _ _ _ (OP k Hk)).
    + intros k Hk. apply curve_ascii_again. apply settles_shown; [|exact (settles_in _ _ _ _ S1 Hk)].
      apply ok_values. exact (co_vals _ _ _ (OC k Hk)).
  - change (1 =? 0) with false.
    rewrite (wfor_ext _ (curves s) (fun x => save_curve c false (curve_via false r6 x)) (save_curve c false))
      by (intros; rewrite curve_false; reflexivity).
    rewrite (wfor_ext _ (patches s) (fun x => save_patch c false (patch_via false r6 x)) (save_patch c false))
      by (intros; rewrite patch_false; reflexivity).
    split; reflexivity.
Qed.

Lemma splines_again : forall c a s s', file_type (mesh_format s) = (if a : bool then 0 else 1) ->
  mesh_format s' = mesh_format s ->
  (nanospline c = true -> splines_ok c a s /\ ns_version s' = ns_version s /\
    curves s' = map (curve_via a r6) (curves s) /\ patches s' = map (patch_via a r6) (patches s)) ->
  settles (text_doubles a s) ->
  (if nanospline c then
     save_nanospline_format s' +++
     (if 0 <? zlen (curves s') then save_curves c s' else wret) +++
     (if 0 <? zlen (patches s') then save_patches c s' else wret)
   else wret) =
  (if nanospline c then
     save_nanospline_format s +++
     (if 0 <? zlen (curves s) then save_curves c s else wret) +++
     (if 0 <? zlen (patches s) then save_patches c s else wret)
   else wret).
Proof.
  intros c a s s' Ht Hf H S. destruct (nanospline c); [|reflexivity]. destruct (H eq_refl) as (OK & EV & EC & EP).
  destruct (curves_again c a s s' Ht Hf EC EP OK S) as [R1 R2]. rewrite R1, R2, EC, EP, !zlen_map.
  unfold save_nanospline_format. rewrite EV. reflexivity.
Qed.

Lemma save41_again : forall c a s, consistent41 c a s -> settles (text_doubles a s) ->
  save_msh c (via41 a r6 (nanospline c) s) = save_msh c s.
Proof.
  intros c a s [V T Z [P1 P2 P3 P4 P5 P6 P7 P8] EN SP] S. unfold save_msh. set (s' := via41 a r6 (nanospline c) s).
  destruct (datas_again s s' a eq_refl T (data_written c a s P6 P7 P8 S) eq_refl eq_refl eq_refl) as (D1 & D2 & D3).
  assert (SPL : nanospline c = true -> splines_ok c a s /\ ns_version s' = ns_version s /\
    curves s' = map (curve_via a r6) (curves s) /\ patches s' = map (patch_via a r6) (patches s)).
  { intro N. split; [exact (SP N)|]. unfold s', via41. cbn [ns_version curves patches]. rewrite N. auto. }
  rewrite D1, D2, D3, (splines_again c a s s' T eq_refl SPL S).
  assert (F : save_mesh_format s' = save_mesh_format s) by reflexivity.
  assert (G : save_physical_groups s' = save_physical_groups s) by reflexivity.
  assert (E : (if negb (entities_empty (entities s')) then save_entities s' else wret) =
              (if negb (entities_empty (entities s)) then save_entities s else wret)).
  { unfold s', entities_empty. cbn [via41 entities entities_via points curves_e surfaces_e volumes_e]. rewrite !zlen_map.
    destruct (negb _); [|reflexivity]. unfold save_entities. cbv zeta. cbn [via41 mesh_format entities]. rewrite V, T.
    change (bytes_eqb (str "4.1") v22s) with false. change (bytes_eqb (str "4.1") v41s) with true. cbv iota. f_equal. f_equal.
    destruct a.
    - change (0 =? 0) with true. cbv iota. unfold text_doubles in S. rewrite !Forall_app in S.
      destruct S as (_ & _ & S1 & S2 & _). destruct EN as [[E1 _] [E2 _] [E3 _] [E4 _]]. rewrite Forall_forall in E1, E2, E3, E4.
      apply entities_ascii_again.
      + apply settles_flat; [exact S1|]. intros p Hp. apply ok_values. destruct (E1 p Hp) as [_ (X1 & X2 & X3) _].
        repeat (constructor; [assumption|]). constructor.
      + apply settles_flat; [exact S2|]. intros p Hp. apply ok_values.
        assert (OK : entity_ok c true p).
        { apply in_app_or in Hp. destruct Hp as [Hp|Hp]; [auto|]. apply in_app_or in Hp. destruct Hp; auto. }
        destruct OK as [_ (X1 & X2 & X3) (X4 & X5 & X6) _ _]. repeat (constructor; [assumption|]). constructor.
    - change (1 =? 0) with false. cbv iota. rewrite entities_false. reflexivity. }
  assert (NN : (if 0 <? n_num_nodes (nodes s') then save_nodes s' else wret) =
               (if 0 <? n_num_nodes (nodes s) then save_nodes s else wret)).
  { unfold s'. cbn [via41 nodes]. unfold nodes_via at 1. destruct (n_num_nodes (nodes s) =? 0) eqn:E0.
    - apply Z.eqb_eq in E0. rewrite E0. reflexivity.
    - cbn [n_num_nodes]. destruct (0 <? n_num_nodes (nodes s)); [|reflexivity]. apply Z.eqb_neq in E0. specialize (P3 E0).
      unfold save_nodes. cbv zeta. cbn [via41 mesh_format nodes]. rewrite V, T.
      change (bytes_eqb (str "4.1") v41s) with true. cbv iota. f_equal. f_equal. destruct a.
      + change (0 =? 0) with true. cbv iota. apply nodes_ascii_again; [|exact E0]. intros b Hb.
        unfold text_doubles in S. rewrite !Forall_app in S. destruct S as (_ & S1 & _).
        apply settles_shown; [|exact (settles_in _ _ _ _ S1 Hb)]. apply ok_values. pose proof (no_blocks _ _ _ P3) as PB.
        rewrite Forall_forall in PB. exact (nbo_vals _ _ _ (PB b Hb)).
      + change (1 =? 0) with false. cbv iota. unfold nodes_via.
        replace (n_num_nodes (nodes s) =? 0) with false by (symmetry; apply Z.eqb_neq; exact E0).
        rewrite (map_same _ (node_block_via false r6)) by apply node_block_false. destruct (nodes s). reflexivity. }
  assert (EE : (if 0 <? e_num_elements (elements s') then save_elements s' else wret) =
               (if 0 <? e_num_elements (elements s) then save_elements s else wret)).
  { unfold s'. cbn [via41 elements]. unfold elements_via at 1. destruct (e_num_elements (elements s) =? 0) eqn:E0.
    - apply Z.eqb_eq in E0. rewrite E0. reflexivity.
    - destruct (0 <? e_num_elements (elements s)); [|reflexivity]. unfold save_elements. cbv zeta.
      cbn [via41 mesh_format elements]. unfold elements_via. rewrite E0. reflexivity. }
  rewrite F, G, E, NN, EE. reflexivity.
Qed.

Lemma stable41 : forall c a s, consistent41 c a s -> settles (text_doubles a s) ->
  exists b s', save_msh c s = (b, Ok tt) /\ load_msh c b = Ok s' /\ save_msh c s' = (b, Ok tt).
Proof.
  intros c a s H S. destruct (roundtrip41 c a s H) as (b & E1 & E2). exists b. eexists.
  split; [exact E1|]. split; [exact E2|]. rewrite save41_again by assumption. exact E1.
Qed.

(** ** Version 2.2, text *)

Lemma nodes_save_again : forall c s s', consistent22 c true s -> kept22 c true r6 s s' -> n_num_nodes (nodes s) <> 0 ->
  nodes_save c true (nodes s').
Proof.
  intros c s s' H K N. pose proof (ok22_nodes _ _ _ H N) as [N1 N2 N3 N4].
  pose proof (k22_nodes _ _ _ _ _ K) as KN. pose proof (k22_node_blocks _ _ _ _ _ K) as NB.
  assert (NF : forall n, In n (mesh_nodes (nodes s')) -> node_fine true n).
  { intros n Hn. rewrite KN in Hn. apply in_map_iff in Hn. destruct Hn as (m & <- & Hm).
    pose proof (nodes_fine c true _ H) as F1. rewrite Forall_forall in F1. destruct (F1 m Hm) as (U1 & U2 & U3 & U4).
    split; [exact U1|]. cbn [node_via22 n_x n_y n_z]. split; [|split]; apply via_via_ok; assumption. }
  assert (ZN : zlen (mesh_nodes (nodes s')) = n_num_nodes (nodes s)).
  { rewrite KN. unfold nodes_22. rewrite zlen_map. symmetry. exact (ok22_num_nodes _ _ _ H). }
  destruct (fits_mul c sz_double _ eq_refl N4) as [M1 M2].
  split; [exact (k22_node_num _ _ _ _ _ K)| |exact N3|rewrite (k22_num_nodes _ _ _ _ _ K); exact N4].
  apply Forall_forall. intros b Hb. rewrite Forall_forall in NB. destruct (NB b Hb) as [B1 B2 B3 B4 B5 B6 B7].
  assert (ZB : zlen (nb_tags b) <= n_num_nodes (nodes s)).
  { rewrite <- ZN. rewrite <- (nodes_of_tags (Z.to_nat (node_width b)) (nb_tags b) (nb_data b)), zlen_map.
    apply (flat_map_zlen _ _ block_nodes). exact Hb. }
  assert (W3 : node_width b = 3) by (unfold node_width; rewrite B1; reflexivity).
  split; try assumption.
  - rewrite W3. unfold INT_MAX. lia.
  - rewrite W3, B5. lia.
  - apply Forall_forall. intros x Hx.
    destruct (coordinate_of x (nb_tags b) (nb_data b)) as (n & Hn & Hxyz); [rewrite B5, B4; reflexivity|exact Hx|].
    assert (IN : In n (mesh_nodes (nodes s'))).
    { apply in_flat_map. exists b. split; [exact Hb|]. unfold block_nodes. rewrite W3. exact Hn. }
    destruct (NF n IN) as (_ & G2 & G3 & G4). destruct Hxyz as [->|[->| ->]]; assumption.
  - eapply (fits_down c _ sz_double _ _ (zlen_nonneg _ _)); [|reflexivity|reflexivity|exact M1|exact M2].
    apply Z.mul_le_mono_nonneg_r; [discriminate|]. rewrite B5, B4. lia.
Qed.

Lemma elements_small22 : forall c s, consistent22 c true s ->
  Forall (fun e => 0 <= el_tag e < 2 ^ 31 /\ Forall (fun t => 0 <= t < 2 ^ 31) (el_nodes e)) (mesh_elements (elements s)).
Proof.
  intros c s H. destruct (Z.eq_dec (e_num_elements (elements s)) 0) as [E|E].
  - pose proof (ok22_num_elements _ _ _ H) as N. rewrite E in N. destruct (mesh_elements (elements s)) as [|x l]; [constructor|].
    rewrite zlen_cons in N. pose proof (zlen_nonneg _ l). lia.
  - pose proof (ok22_elements _ _ _ H E) as [_ HB _ _]. apply Forall_forall. intros e He. apply in_flat_map in He.
    destruct He as (b & Hb & He). rewrite Forall_forall in HB. specialize (HB b Hb).
    rewrite (block_elements_rows c true b HB) in He. apply in_map_iff in He. destruct He as (row & <- & Hr).
    assert (V : Forall (fun x => 0 <= x < 2 ^ 31) row).
    { assert (IN : forall x, In x row -> In x (eb_data b)).
      { intros x Hx. destruct (block_facts c true b HB) as (G & G1 & _ & L & _ & G2 & _). unfold erows in Hr.
        rewrite <- cut_rows in Hr by (unfold width; lia). eapply cut_in; eassumption. }
      apply Forall_forall. intros x Hx. pose proof (ebs_vals _ _ _ HB) as V1. pose proof (ebs_vals32 _ _ _ HB eq_refl) as V2.
      rewrite Forall_forall in V1, V2. specialize (V1 x (IN x Hx)). specialize (V2 x (IN x Hx)). unfold size_ok, INT_MAX in *. lia. }
    cbn [element_of el_tag el_nodes]. destruct row as [|x row]; cbn [hd tl]; [split; [lia|constructor]|].
    inversion V; subst. auto.
Qed.

Lemma elements_22_ascii : forall c s, consistent22 c true s -> elements_22 s = map with_type_dim (mesh_elements (elements s)).
Proof.
  intros c s H. pose proof (elements_small22 c s H) as SM. apply map_ext_in. intros e He. rewrite Forall_forall in SM.
  destruct (SM e He) as [H1 H2]. unfold element_via22, with_type_dim. rewrite tag32_small by (unfold INT_MAX; lia). f_equal.
  rewrite <- (map_id (el_nodes e)) at 2. apply map_ext_in. intros t Ht. rewrite Forall_forall in H2.
  apply tag32_small. specialize (H2 t Ht). unfold INT_MAX. lia.
Qed.

Lemma elements_save_again : forall c s s', consistent22 c true s -> kept22 c true r6 s s' -> e_num_elements (elements s) <> 0 ->
  one_block c s -> elements_save c true (elements s').
Proof.
  intros c s s' H K N M. pose proof (ok22_elements _ _ _ H N) as [N1 N2 N3 N4].
  pose proof (k22_elements _ _ _ _ _ K) as KE. rewrite (elements_22_ascii c s H) in KE.
  pose proof (k22_element_blocks _ _ _ _ _ K) as EB. pose proof (k22_element_full _ _ _ _ _ K) as EF.
  pose proof (elements_small22 c s H) as SM.
  assert (WE : flat_map element_words (mesh_elements (elements s')) = flat_map element_words (mesh_elements (elements s))).
  { rewrite KE, flat_map_map. apply flat_map_ext. reflexivity. }
  destruct (fits_mul c sz_size _ eq_refl M) as [M1 M2].
  split; [exact (k22_element_num _ _ _ _ _ K)| |rewrite (k22_num_elements _ _ _ _ _ K); exact N3|discriminate].
  apply Forall_forall. intros b Hb. rewrite Forall_forall in EB, EF. specialize (EB b Hb). specialize (EF b Hb).
  pose proof (block_words b EB) as BW. pose proof (block_elements_full b EB EF) as BF.
  assert (IN : forall e, In e (block_elements b) -> In e (mesh_elements (elements s'))).
  { intros e He. apply in_flat_map. exists b. auto. }
  assert (BV : forall x, In x (eb_data b) -> 0 <= x < 2 ^ 31).
  { intros x Hx. rewrite BW in Hx. apply in_flat_map in Hx. destruct Hx as (e & He & Hx). apply IN in He. rewrite KE in He.
    apply in_map_iff in He. destruct He as (e0 & <- & He0). rewrite Forall_forall in SM. destruct (SM e0 He0) as [S1 S2].
    rewrite Forall_forall in S2. cbn [with_type_dim element_words el_tag el_nodes] in Hx. destruct Hx as [<-|Hx]; auto. }
  assert (FI : exists n, gmsh_nodes (eb_type b) = Some n /\ fits c sz_int n).
  { destruct (block_elements b) as [|e l] eqn:E; [congruence|]. assert (He : In e (block_elements b)) by (rewrite E; left; reflexivity).
    pose proof (element_block_key b e He) as EK. unfold element_key in EK. injection EK as _ _ ET.
    rewrite <- E in IN. apply IN in He. rewrite KE in He. apply in_map_iff in He. destruct He as (e0 & <- & He0).
    cbn [with_type_dim el_type] in ET. apply in_flat_map in He0. destruct He0 as (b0 & Hb0 & He0).
    pose proof (element_block_key b0 e0 He0) as EK0. unfold element_key in EK0. injection EK0 as _ _ ET0.
    rewrite Forall_forall in N2. destruct (ebs_data _ _ _ (N2 b0 Hb0)) as (n & G & _ & F). exists n.
    rewrite ET, <- ET0. auto. }
  destruct EB as [B1 B2 B3 (n & G & L) B5]. split; try assumption.
  - discriminate.
  - exists n. destruct FI as (n' & G' & F). rewrite G in G'. injection G' as <-. auto.
  - intros _. apply Forall_forall. intros x Hx. specialize (BV x Hx). unfold INT_MAX. lia.
  - eapply (fits_down c _ sz_size _ _ (zlen_nonneg _ _)); [|reflexivity|reflexivity|exact M1|exact M2].
    apply Z.mul_le_mono_nonneg_r; [discriminate|]. rewrite <- WE, BW. unfold mesh_elements. rewrite flat_map_flat.
    apply (flat_map_zlen _ _ (fun b => flat_map element_words (block_elements b))). exact Hb.
Qed.

Definition element_text (e : element) : bytes :=
  show_Z (el_tag e) ++ sp ++ show_Z (el_type e) ++ sp ++ show_Z 1 ++ sp ++ show_Z (el_ent e) ++ sp ++ line show_Z (el_nodes e).

Lemma elements_text : forall c e, elements_save c true e -> v22_save_elements_ascii e =
  (show_Z (e_num_elements e) ++ endl ++ List.concat (map element_text (mesh_elements e)), Ok tt).
Proof.
  intros c e H. pose proof (save_elements_22 c true e H) as E. cbv iota in E. rewrite E. f_equal. f_equal. f_equal.
  unfold mesh_elements. rewrite <- concat_flat. f_equal. apply map_ext_in. intros b Hb.
  pose proof (es_blocks _ _ _ H) as HB. rewrite Forall_forall in HB.
  rewrite (block_elements_rows c true b (HB b Hb)), map_map. reflexivity.
Qed.

Lemma save22_again : forall c s s', consistent22 c true s -> settles (text_doubles true s) -> one_block c s ->
  kept22 c true r6 s s' -> save_msh c s' = save_msh c s.
Proof.
  intros c s s' H S M K. pose proof (k22_format _ _ _ _ _ K) as KF.
  pose proof (ok22_version _ _ _ H) as V. pose proof (ok22_type _ _ _ H) as T. cbv iota in T.
  destruct (k22_data _ _ _ _ _ K) as (D1 & D2 & D3). pose proof (k22_splines _ _ _ _ _ K) as SPL.
  unfold save_msh.
  destruct (datas_again s s' true KF T) as (E1 & E2 & E3); try assumption.
  { apply (data_written c); [exact (ok22_node_data _ _ _ H)|exact (ok22_element_data _ _ _ H)|exact (ok22_element_node_data _ _ _ H)|exact S]. }
  rewrite E1, E2, E3.
  rewrite (splines_again c true s s' T KF); [|intro N; split; [exact (ok22_splines _ _ _ H N)|rewrite N in SPL; injection SPL; auto]|exact S].
  assert (F : save_mesh_format s' = save_mesh_format s) by (unfold save_mesh_format; rewrite KF; reflexivity).
  assert (G : (if 0 <? zlen (physical_groups s') then save_physical_groups s' else wret) =
              (if 0 <? zlen (physical_groups s) then save_physical_groups s else wret)).
  { unfold save_physical_groups. rewrite (k22_groups _ _ _ _ _ K). reflexivity. }
  assert (E : forall s0, version (mesh_format s0) = str "2.2" ->
    (if negb (entities_empty (entities s0)) then save_entities s0 else wret) = wret).
  { intros s0 H0. unfold save_entities. cbv zeta. rewrite H0. destruct (negb _); reflexivity. }
  rewrite F, G, (E s V), (E s') by (rewrite KF; exact V).
  assert (NN : (if 0 <? n_num_nodes (nodes s') then save_nodes s' else wret) =
               (if 0 <? n_num_nodes (nodes s) then save_nodes s else wret)).
  { rewrite (k22_num_nodes _ _ _ _ _ K). destruct (Z.ltb_spec 0 (n_num_nodes (nodes s))) as [L|L]; [|reflexivity].
    assert (N : n_num_nodes (nodes s) <> 0) by lia.
    pose proof (save_nodes_22 c true _ (nodes_save_again c s s' H K N)) as T1.
    pose proof (save_nodes_22 c true _ (ok22_nodes _ _ _ H N)) as T2. cbv iota in T1, T2.
    unfold save_nodes. cbv zeta. rewrite KF, V, T. change (bytes_eqb (str "2.2") v41s) with false.
    change (bytes_eqb (str "2.2") v22s) with true. change (0 =? 0) with true. cbv iota. rewrite T1, T2.
    rewrite (k22_num_nodes _ _ _ _ _ K), (k22_nodes _ _ _ _ _ K). unfold nodes_22. rewrite map_map.
    replace (map (fun x => node_line (node_via22 true r6 x)) (mesh_nodes (nodes s))) with (map node_line (mesh_nodes (nodes s))); [reflexivity|].
    apply map_ext_in. intros n Hn. pose proof (nodes_fine c true s H) as NF. rewrite Forall_forall in NF.
    destruct (NF n Hn) as (_ & (X1 & X2) & (Y1 & Y2) & (Z1 & Z2)).
    assert (NS : forall x, In x [n_x n; n_y n; n_z n] -> normal x \/ r6 x = x).
    { intros x Hx. unfold text_doubles in S. rewrite !Forall_app in S. destruct S as (_ & S & _). rewrite Forall_forall in S. apply S.
      apply in_flat_map in Hn. destruct Hn as (b & Hb & Hn). apply in_flat_map. exists b. split; [exact Hb|].
      pose proof (ns_blocks _ _ _ (ok22_nodes _ _ _ H N)) as NB. rewrite Forall_forall in NB. specialize (NB b Hb).
      destruct (width_ok c true b NB) as (_ & W2 & _). apply (In_nth _ _ node0) in Hn. destruct Hn as (j & Hj & <-).
      destruct (node_at c true b (Z.of_nat j) node0 NB) as (_ & A2 & A3 & A4 & _); [unfold zlen in W2; lia|].
      rewrite Nat2Z.id in *.
      assert (AT : forall i y, at_ (nb_data b) i = Ok y -> In y (nb_data b)).
      { intros i y. unfold at_. destruct (i <? 0); [discriminate|]. destruct (nth_error _ _) eqn:EE; [|discriminate].
        intro Q. injection Q as <-. eapply nth_error_In. exact EE. }
      cbn [In] in Hx. destruct Hx as [<-|[<-|[<-|[]]]]; eapply AT; eassumption. }
    unfold node_line. cbn [node_via22 n_tag n_x n_y n_z via tag_22].
    rewrite !show_again by (auto; apply NS; cbn [In]; auto). reflexivity. }
  assert (EE : (if 0 <? e_num_elements (elements s') then save_elements s' else wret) =
               (if 0 <? e_num_elements (elements s) then save_elements s else wret)).
  { rewrite (k22_num_elements _ _ _ _ _ K). destruct (Z.ltb_spec 0 (e_num_elements (elements s))) as [L|L]; [|reflexivity].
    assert (N : e_num_elements (elements s) <> 0) by lia.
    pose proof (elements_text c _ (elements_save_again c s s' H K N M)) as T1.
    pose proof (elements_text c _ (ok22_elements _ _ _ H N)) as T2.
    unfold save_elements. cbv zeta. rewrite KF, V, T. change (bytes_eqb (str "2.2") v41s) with false.
    change (bytes_eqb (str "2.2") v22s) with true. change (0 =? 0) with true. cbv iota. rewrite T1, T2.
    rewrite (k22_num_elements _ _ _ _ _ K), (k22_elements _ _ _ _ _ K), (elements_22_ascii c s H), map_map. reflexivity. }
  rewrite NN, EE. reflexivity.
Qed.

Lemma stable22 : forall c s, consistent22 c true s -> settles (text_doubles true s) -> one_block c s ->
  exists b s', save_msh c s = (b, Ok tt) /\ load_msh c b = Ok s' /\ save_msh c s' = (b, Ok tt).
Proof.
  intros c s H S M. destruct (roundtrip22 c true s H) as (b & s' & E1 & E2 & K). exists b, s'.
  split; [exact E1|]. split; [exact E2|]. rewrite (save22_again c s s' H S M K). exact E1.
Qed.
