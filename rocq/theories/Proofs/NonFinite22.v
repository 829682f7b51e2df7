(** 2.2 files with "nan" or "inf" in them. *)

From Verif Require Import Model.Save Spec.NonFinite Spec.Text22 Spec.Steps Proofs.BytesP Proofs.RtBase Proofs.ShowP
  Proofs.WriteP Proofs.RtStep Proofs.Mono Proofs.Fuel Proofs.Reach Proofs.Compose Proofs.Rt41A Proofs.Rt41B
  Proofs.Rt41 Proofs.Text22P Proofs.Rt22 Proofs.GuardP Proofs.NonFiniteP Proofs.NonFiniteW.

Ltac Zify.zify_post_hook ::= idtac.

(** ** Nodes *)

Definition node_good (n : node) : bool := is_finite (n_x n) && (is_finite (n_y n) && (is_finite (n_z n) && true)).

Lemma load_node_GT : forall c u n, node_fine false n ->
  GT (node_good n) (v22_node_ascii c u) (node_line n) (row_of (node_via22 true r6 n)).
Proof.
  intros c u n (H1 & [H2 _] & [H3 _] & [H4 _]). unfold v22_node_ascii, node_line, node_good. gt_int.
  eapply GT_double; [mono_side|exact H2|apply ws_sp|nonnil|].
  eapply GT_double; [mono_side|exact H3|apply ws_sp|nonnil|].
  rewrite <- (app_nil_r endl).
  eapply GT_double; [mono_side|exact H4|apply ws_endl|nonnil|].
  apply GT_RT. eapply RT_bind0; [intros; apply assert_good_ok; assumption|]. apply RT_ret.
Qed.

Lemma load_nodes_GT22 : forall c n l, Forall (node_fine false) l -> nodes_mem c n l ->
  GT (forallb node_good l) (v22_load_nodes_ascii c n) (show_Z (zlen l) ++ endl ++ List.concat (map node_line l))
     (nodes_after n (map (node_via22 true r6) l)).
Proof.
  intros c n l HT HM. pose proof (nodes_mem_size _ _ _ HM) as HS. destruct HM as [M1 M2].
  unfold v22_load_nodes_ascii.
  eapply GT_bind0; [intros; apply lift_ok; apply hold_fits; exact M1|].
  gt_int. gt0.
  eapply GT_bind0; [intros; apply lift_ok; apply resizes_ok; [apply zlen_nonneg|exact M2]|].
  unfold nodes_after. rewrite zlen_map, map_map. gt_ret.
  apply (mapM_GT _ _ _ _ node_good node_line (fun x => row_of (node_via22 true r6 x)));
    [intro; unfold v22_node_ascii; mono_go|rewrite repeat_length; unfold zlen; lia|].
  intros x v _ Hv. rewrite Forall_forall in HT. apply load_node_GT. auto.
Qed.

(** Writing does not depend on the values. *)
Lemma save_nodes_any : forall c x (a : bool) n, nodes_save c x n ->
  (if a then v22_save_nodes_ascii n else v22_save_nodes_binary n) =
  (show_Z (n_num_nodes n) ++ endl ++ List.concat (map (if a then node_line else node_bytes) (mesh_nodes n)), Ok tt).
Proof.
  intros c x a n [N1 N2 N3 N4]. rewrite Forall_forall in N2. unfold mesh_nodes. rewrite <- concat_flat.
  destruct a; [unfold v22_save_nodes_ascii|unfold v22_save_nodes_binary];
    (erewrite wseq_ok; [|apply out_ok|rewrite iota_at_all by exact N1; apply wfor_ok; intros b Hb];
     [rewrite <- app_assoc; reflexivity|]).
  - apply (save_node_block_22a c x). auto.
  - apply (save_node_block_22b c x). auto.
Qed.

Definition nodes_good22 (n : Nodes) : bool :=
  if n_num_nodes n =? 0 then true else forallb node_good (mesh_nodes n).

Lemma nodes_GPIECE22 : forall c a s spec, fmt v22s a s -> fmt v22s a spec ->
  n_num_nodes (nodes s) = zlen (mesh_nodes (nodes s)) ->
  (n_num_nodes (nodes s) <> 0 -> nodes_save c false (nodes s)) ->
  nodes spec = n_default ->
  GPIECE (if a then nodes_good22 (nodes s) else true) c (if 0 <? n_num_nodes (nodes s) then save_nodes s else wret)
    spec (nodes_step a s spec).
Proof.
  intros c a s spec F F' HN H H0. unfold nodes_step. destruct a; [|apply PIECE_G, (nodes_PIECE22 c false); assumption].
  destruct F as [Hv Ht]. pose proof (zlen_nonneg _ (mesh_nodes (nodes s))) as P. unfold nodes_good22.
  destruct (n_num_nodes (nodes s) =? 0) eqn:E.
  - apply Z.eqb_eq in E. replace (0 <? n_num_nodes (nodes s)) with false by (symmetry; apply Z.ltb_ge; lia).
    apply GPIECE_ret.
  - apply Z.eqb_neq in E. replace (0 <? n_num_nodes (nodes s)) with true by (symmetry; apply Z.ltb_lt; lia).
    specialize (H E). pose proof (saved_nodes_fine c false _ H) as HF.
    pose proof (save_nodes_any c false true _ H) as HW. destruct H as [N1 N2 N3 N4].
    assert (M : nodes_mem c (prior_nodes (nodes spec)) (mesh_nodes (nodes s))).
    { split; [rewrite H0; exact N3|]. rewrite <- HN. exact N4. }
    unfold save_nodes. cbv zeta. rewrite Hv, Ht. change (bytes_eqb v22s v41s) with false.
    change (bytes_eqb v22s v22s) with true. cbv iota. rewrite ftype_eqb, HW, HN.
    pose proof (nodes_dispatch c true spec _ F' eq_refl) as ED.
    eapply (section_GPIECE _ c (str "$Nodes")); [tok|reflexivity|reflexivity|].
    rewrite ED. apply (GT_map_ret _ _ _ _ (fun n' => set_nodes n' spec)).
    apply load_nodes_GT22; assumption.
Qed.

(** ** The whole file *)

Definition good22 (c : cfg) (a : bool) (s : MshSpec) : bool :=
  (if a then nodes_good22 (nodes s) else true) && others_good c a s.

Lemma guard22 : forall c a s, good22 c a s = forallb is_finite (written22 c a s).
Proof.
  intros c a s. unfold good22, written22. rewrite others_guard, forallb_app. destruct a; [|reflexivity].
  f_equal. unfold nodes_good22. destruct (n_num_nodes (nodes s) =? 0); [reflexivity|].
  rewrite <- forallb_flat. reflexivity.
Qed.

Lemma node_block_any22 : forall c a b, node_block_saves c a (node_block_via true (via a fin0) b) ->
  (a = true -> Forall size_ok (nb_data b)) -> node_block_saves c false b.
Proof.
  intros c a b [H1 H2 H3 H4 H5 H6] S. cbn [node_block_via nb_dim nb_tag nb_parametric nb_num nb_tags nb_data] in *.
  change (via true (via a fin0)) with (via a fin0) in *. rewrite zlen_map in *.
  split; try assumption. eapply vals_any; eassumption.
Qed.

Lemma nodes_any22 : forall c a n, nodes_save c a (round_nodes (via a fin0) n) ->
  (a = true -> Forall size_ok (flat_map nb_data (n_blocks n))) -> nodes_save c false n.
Proof.
  intros c a n [H1 H2 H3 H4] S. cbn [round_nodes n_num_blocks n_num_nodes n_blocks] in *.
  rewrite zlen_map in *. rewrite Forall_map in H2. rewrite Forall_forall in H2.
  split; try assumption. apply Forall_forall. intros b Hb. apply (node_block_any22 c a); [auto|].
  intro E. exact (Forall_in _ _ _ _ _ b (S E) Hb).
Qed.

Lemma fin0_0 : forall a, via a fin0 0 = 0.
Proof. intros []; reflexivity. Qed.

Lemma finite_nodes_of : forall a w tags data,
  nodes_of w tags (map (via a fin0) data) = map (node_round a fin0) (nodes_of w tags data).
Proof.
  intros a w tags. induction tags as [|t tags IH]; intro data; [reflexivity|]. cbn [nodes_of map].
  rewrite <- IH, skipn_map. f_equal. unfold node_round. cbn [n_tag n_x n_y n_z].
  assert (Q : forall k, nth k (map (via a fin0) data) 0 = via a fin0 (nth k data 0)).
  { intro k. rewrite <- (fin0_0 a) at 1. apply map_nth. }
  rewrite !Q. reflexivity.
Qed.

Lemma finite_mesh_nodes : forall a n, mesh_nodes (round_nodes (via a fin0) n) = map (node_round a fin0) (mesh_nodes n).
Proof.
  intros a n. unfold mesh_nodes, round_nodes. cbn [n_blocks]. induction (n_blocks n) as [|b l IH]; [reflexivity|].
  cbn [map flat_map]. rewrite map_app, IH. f_equal. unfold block_nodes. apply finite_nodes_of.
Qed.

Lemma finite_nodes_same : forall a l, (a = true -> Forall finite (flat_map (fun n => [n_x n; n_y n; n_z n]) l)) ->
  map (node_round a fin0) l = l.
Proof.
  intros a l H. induction l as [|n l IH]; [reflexivity|]. cbn [map].
  rewrite IH by (intro E; specialize (H E); cbn [flat_map] in H; apply Forall_app in H; apply H). f_equal.
  destruct n as [t x y z]. unfold node_round, via. cbn [n_tag n_x n_y n_z]. destruct a; [|reflexivity].
  specialize (H eq_refl). cbn [flat_map n_x n_y n_z app] in H.
  inversion H as [|? ? F1 G1]; inversion G1 as [|? ? F2 G2]; inversion G2 as [|? ? F3 _]; subst.
  rewrite !fin0_id by assumption. reflexivity.
Qed.

Lemma finite_data_same : forall a ds, Forall finite (flat_map (fun d => real_tags (d_header d)) ds) ->
  (a = true -> Forall finite (flat_map (fun d => flat_map de_data (d_entries d)) ds)) -> map (finite_data a) ds = ds.
Proof.
  intros a ds H1 H2. rewrite <- (map_id ds) at 2. apply map_ext_in. intros d Hd.
  pose proof (Forall_in _ _ _ _ _ d H1 Hd) as R.
  destruct d as [[st rt it] es]. unfold finite_data. cbn [d_header d_entries string_tags real_tags int_tags] in *.
  rewrite (fin0_ids _ R). f_equal. rewrite <- (map_id es) at 2. apply map_ext_in. intros e He.
  destruct e as [t k l]. cbn [de_tag de_npe de_data]. f_equal. unfold via. destruct a; [|apply map_id].
  pose proof (Forall_in _ _ _ _ _ _ (H2 eq_refl) Hd) as Q. cbn [d_entries] in Q.
  exact (fin0_ids _ (Forall_in _ _ _ _ _ _ Q He)).
Qed.

Lemma finite_curves_same : forall a l, (a = true -> Forall finite (flat_map cv_data l)) -> map (curve_via a fin0) l = l.
Proof.
  intros a l H. rewrite <- (map_id l) at 2. apply map_ext_in. intros k Hk.
  destruct k as [q1 q2 q3 q4 q5 q6 q7]. unfold curve_via. cbn [cv_tag cv_type cv_degree cv_ncp cv_nknots cv_weights cv_data].
  f_equal. unfold via. destruct a; [|apply map_id]. exact (fin0_ids _ (Forall_in _ _ _ _ _ _ (H eq_refl) Hk)).
Qed.

Lemma finite_patches_same : forall a l, (a = true -> Forall finite (flat_map pt_data l)) -> map (patch_via a fin0) l = l.
Proof.
  intros a l H. rewrite <- (map_id l) at 2. apply map_ext_in. intros k Hk.
  destruct k as [q1 q2 q3 q4 q5 q6 q7 q8 q9]. unfold patch_via.
  cbn [pt_tag pt_type pt_degu pt_degv pt_ncp pt_nu pt_nv pt_weights pt_data].
  f_equal. unfold via. destruct a; [|apply map_id]. exact (fin0_ids _ (Forall_in _ _ _ _ _ _ (H eq_refl) Hk)).
Qed.

Section Whole.
Variables (c : cfg) (a : bool) (s : MshSpec).
Hypothesis H : consistent22 c a (finite_part a s).
Hypothesis HS : Forall size_ok (text_doubles a s).

Lemma sizes22 : Forall size_ok (flat_map (fun d => real_tags (d_header d)) (all_data s)) /\
  (a = true -> Forall size_ok (flat_map nb_data (n_blocks (nodes s))) /\
     Forall size_ok (flat_map (fun d => flat_map de_data (d_entries d)) (all_data s)) /\
     Forall size_ok (flat_map cv_data (curves s) ++ flat_map pt_data (patches s))).
Proof.
  unfold text_doubles in HS. apply Forall_app in HS. destruct HS as [R O]. split; [exact R|].
  intros ->. rewrite !Forall_app in O. rewrite Forall_app. tauto.
Qed.

Lemma nodes_any_s : n_num_nodes (nodes s) <> 0 -> nodes_save c false (nodes s).
Proof.
  intro N. apply (nodes_any22 c a); [apply (ok22_nodes _ _ _ H); exact N|]. apply sizes22.
Qed.

Lemma num_nodes_s : n_num_nodes (nodes s) = zlen (mesh_nodes (nodes s)).
Proof.
  pose proof (ok22_num_nodes _ _ _ H) as Q. cbn [finite_part nodes] in Q. rewrite finite_mesh_nodes, zlen_map in Q. exact Q.
Qed.

Lemma written_sizes22 : Forall size_ok (written22 c a s).
Proof.
  pose proof nodes_any_s as NA. destruct sizes22 as [R O]. unfold written22, other_doubles. rewrite !Forall_app. split; [|split; [exact R|]].
  - destruct a; [|constructor]. destruct (n_num_nodes (nodes s) =? 0) eqn:E; [constructor|].
    apply Z.eqb_neq in E. pose proof (saved_nodes_fine c false _ (NA E)) as F.
    apply Forall_forall. intros x Hx. apply in_flat_map in Hx. destruct Hx as (n & Hn & Hx).
    rewrite Forall_forall in F. destruct (F n Hn) as (_ & [F1 _] & [F2 _] & [F3 _]).
    cbn [In] in Hx. destruct Hx as [<-|[<-|[<-|[]]]]; assumption.
  - destruct a; [|constructor]. destruct (O eq_refl) as (_ & O1 & O2). apply Forall_app. split; [exact O1|].
    destruct (nanospline c); [exact O2|constructor].
Qed.

Lemma gpiece22 : GPIECE (good22 c a s) c (save_msh c s) spec_default (raw22_of c a s).
Proof.
  pose proof nodes_any_s as NA. pose proof num_nodes_s as NN. destruct sizes22 as [R O].
  destruct H as [Hv Ht Hd Kg Knn Kn Kne Ke Kr Kw [M1 M2] Knd Ked Kend Hns].
  cbn [finite_part mesh_format nodes elements entities physical_groups node_data element_data element_node_data] in *.
  assert (Ht' : file_type (mesh_format s) = ftype a) by exact Ht.
  assert (F : fmt v22s a s) by (split; assumption).
  assert (FB : fmt v22s a (base22 s)) by (split; assumption).
  destruct (nodes_step_rest a s (base22 s)) as (N1 & N2 & N3).
  pose proof (mid22_rest a s) as MR.
  pose proof (fmt_rest _ _ _ _ N1 FB) as FN. pose proof (fmt_rest _ _ _ _ MR FB) as FM.
  destruct MR as [_ _ (D1 & D2 & D3) (X1 & X2 & X3)].
  assert (D : forall pn ds, Forall (data_ok c a pn) (map (finite_data a) ds) -> incl ds (all_data s) -> Forall (data_shape c pn) ds).
  { intros pn ds Q1 Q3. apply (datas_any c a); auto.
    - apply Forall_forall. intros x Hx. apply in_flat_map in Hx. destruct Hx as (d & Hd1 & Hd2).
      rewrite Forall_forall in R. apply R. apply in_flat_map. exists d. auto.
    - intro E. destruct (O E) as (_ & Q & _).
      apply Forall_forall. intros x Hx. apply in_flat_map in Hx. destruct Hx as (d & Hd1 & Hd2).
      rewrite Forall_forall in Q. apply Q. apply in_flat_map. exists d. auto. }
  assert (P : GPIECE (true && (true && (true && ((if a then nodes_good22 (nodes s) else true) && (true && others_good c a s))))) c
     (save_msh c s) spec_default (raw22_of c a s)); [|exact P].
  unfold save_msh, others_good.
  eapply GPIECE_seq; [apply PIECE_G, format_PIECE; [right; exact Hv| |right; split; [exact Hv|exact Hd]]|].
  { rewrite Ht'. destruct a; auto. }
  eapply GPIECE_seq; [apply PIECE_G, groups_PIECE; [exact Kg|reflexivity]|].
  eapply GPIECE_seq; [instantiate (1 := base22 s)|].
  { unfold save_entities. cbv zeta. rewrite (proj1 F). change (bytes_eqb v22s v22s) with true. cbv iota.
    destruct (negb _); apply GPIECE_ret. }
  eapply GPIECE_seq; [apply (nodes_GPIECE22 c a); auto|].
  eapply GPIECE_seq; [apply PIECE_G, (elements_PIECE22 c a); auto; rewrite N3; reflexivity|]. fold (mid22 a s).
  eapply GPIECE_seq; [apply (node_data_GPIECE c v22s a); auto|].
  { apply D; auto. intros x Hx. unfold all_data. rewrite !in_app_iff. auto. }
  eapply GPIECE_seq; [apply (element_data_GPIECE c v22s a); auto|].
  { apply D; auto. intros x Hx. unfold all_data. rewrite !in_app_iff. auto. }
  eapply GPIECE_seq; [apply (element_node_data_GPIECE c v22s a); auto|].
  { apply D; auto. intros x Hx. unfold all_data. rewrite !in_app_iff. auto. }
  apply (splines_GPIECE c v22s a); auto. intro N. apply (splines_any c a); [auto|].
  intro E. apply (O E).
Qed.

(** Nothing written is replaced. *)
Lemma finite_same22 : Forall finite (written22 c a s) ->
  nodes_22 a r6 (finite_part a s) = nodes_22 a r6 s /\ mesh_nodes (nodes (finite_part a s)) = mesh_nodes (nodes s) /\
  node_data (finite_part a s) = node_data s /\ element_data (finite_part a s) = element_data s /\
  element_node_data (finite_part a s) = element_node_data s /\
  (nanospline c = true -> curves (finite_part a s) = curves s /\ patches (finite_part a s) = patches s).
Proof.
  pose proof num_nodes_s as NN. intro F. unfold written22, other_doubles, all_data in F. rewrite !Forall_app in F. destruct F as (F1 & F2 & F3).
  rewrite !flat_map_app, !Forall_app in F2. destruct F2 as (R1 & R2 & R3).
  assert (F4 : a = true -> Forall finite (flat_map (fun d => flat_map de_data (d_entries d)) (node_data s)) /\
     Forall finite (flat_map (fun d => flat_map de_data (d_entries d)) (element_data s)) /\
     Forall finite (flat_map (fun d => flat_map de_data (d_entries d)) (element_node_data s)) /\
     (nanospline c = true -> Forall finite (flat_map cv_data (curves s)) /\ Forall finite (flat_map pt_data (patches s)))).
  { intros ->. rewrite !Forall_app, !flat_map_app, !Forall_app in F3. destruct F3 as ((Q1 & Q2 & Q3) & Q4).
    split; [exact Q1|]. split; [exact Q2|]. split; [exact Q3|]. intro N. rewrite N in Q4. apply Forall_app in Q4. exact Q4. }
  assert (MN : mesh_nodes (nodes (finite_part a s)) = mesh_nodes (nodes s)).
  { cbn [finite_part nodes]. rewrite finite_mesh_nodes. apply finite_nodes_same. intros ->.
    destruct (n_num_nodes (nodes s) =? 0) eqn:E; [|exact F1].
    apply Z.eqb_eq in E. rewrite NN in E. destruct (mesh_nodes (nodes s)) as [|x l]; [constructor|].
    rewrite zlen_cons in E. pose proof (zlen_nonneg _ l). lia. }
  split; [unfold nodes_22; rewrite MN; reflexivity|]. split; [exact MN|].
  cbn [finite_part node_data element_data element_node_data curves patches].
  split; [apply finite_data_same; [exact R1|intro E; apply (F4 E)]|].
  split; [apply finite_data_same; [exact R2|intro E; apply (F4 E)]|].
  split; [apply finite_data_same; [exact R3|intro E; apply (F4 E)]|].
  intro N. split; [apply finite_curves_same|apply finite_patches_same]; intro E; destruct (F4 E) as (_ & _ & _ & Q); apply (Q N).
Qed.

Lemma save_same22 : Forall finite (written22 c a s) -> save_msh c (finite_part a s) = save_msh c s.
Proof.
  intro F. destruct (finite_same22 F) as (_ & MN & E1 & E2 & E3 & E4).
  assert (V : version (mesh_format s) = v22s) by apply H.
  unfold save_msh.
  assert (A1 : save_mesh_format (finite_part a s) = save_mesh_format s) by reflexivity.
  assert (A2 : save_physical_groups (finite_part a s) = save_physical_groups s) by reflexivity.
  assert (A3 : forall x, version (mesh_format x) = v22s -> save_entities x = wret).
  { intros x Vx. unfold save_entities. cbv zeta. rewrite Vx. change (bytes_eqb v22s v22s) with true. reflexivity. }
  assert (A4 : (if 0 <? n_num_nodes (nodes (finite_part a s)) then save_nodes (finite_part a s) else wret) =
               (if 0 <? n_num_nodes (nodes s) then save_nodes s else wret)).
  { change (n_num_nodes (nodes (finite_part a s))) with (n_num_nodes (nodes s)).
    destruct (0 <? n_num_nodes (nodes s)) eqn:E; [|reflexivity]. apply Z.ltb_lt in E.
    unfold save_nodes. cbv zeta. change (mesh_format (finite_part a s)) with (mesh_format s). rewrite V.
    change (bytes_eqb v22s v41s) with false. change (bytes_eqb v22s v22s) with true. cbv iota.
    assert (N : n_num_nodes (nodes s) <> 0) by lia.
    rewrite (save_nodes_any c false _ _ (nodes_any_s N)), (save_nodes_any c a _ _ (ok22_nodes _ _ _ H N)), MN. reflexivity. }
  rewrite A1, A2, !A3, A4 by exact V.
  assert (A5 : save_node_data (finite_part a s) = save_node_data s) by (unfold save_node_data; rewrite E1; reflexivity).
  assert (A6 : save_element_data (finite_part a s) = save_element_data s) by (unfold save_element_data; rewrite E2; reflexivity).
  assert (A7 : save_element_node_data (finite_part a s) = save_element_node_data s)
    by (unfold save_element_node_data; rewrite E3; reflexivity).
  rewrite E1, E2, E3, A5, A6, A7.
  assert (A8 : (if nanospline c then
       save_nanospline_format (finite_part a s) +++
       (if 0 <? zlen (curves (finite_part a s)) then save_curves c (finite_part a s) else wret) +++
       (if 0 <? zlen (patches (finite_part a s)) then save_patches c (finite_part a s) else wret)
     else wret) = (if nanospline c then
       save_nanospline_format s +++
       (if 0 <? zlen (curves s) then save_curves c s else wret) +++
       (if 0 <? zlen (patches s) then save_patches c s else wret)
     else wret)).
  { destruct (nanospline c) eqn:N; [|reflexivity]. destruct (E4 eq_refl) as [C1 C2].
    unfold save_curves, save_patches. rewrite C1, C2. reflexivity. }
  rewrite A8. destruct (negb _), (negb _); reflexivity.
Qed.

Theorem nonfinite22 : exists b, save_msh c s = (b, Ok tt) /\
    (Forall finite (written22 c a s) -> exists s', load_msh c b = Ok s' /\ kept22 c a r6 s s') /\
    (~ Forall finite (written22 c a s) -> forall s', load_msh c b <> Ok s').
Proof.
  pose proof gpiece22 as P. pose proof (Forall_finite _ written_sizes22) as G.
  rewrite <- guard22 in G. destruct (good22 c a s) eqn:E.
  - assert (F : Forall finite (written22 c a s)) by (apply G; reflexivity).
    destruct (roundtrip22 c a _ H) as (b & s' & W & L & K). rewrite (save_same22 F) in W.
    exists b. split; [exact W|]. split; [|tauto]. intros _. exists s'. split; [exact L|].
    destruct (finite_same22 F) as (NN & MN & E1 & E2 & E3 & E4).
    assert (EE : elements_22 (finite_part a s) = elements_22 s) by reflexivity.
    destruct K as [K1 K2 K3 K4 K5 K6 K7 K8 K9 K10 K11 K12 K13 K14 K15 K16 K17 K18 K19 K20 K21 K22].
    rewrite ?NN, ?EE, ?E1, ?E2, ?E3 in *.
    assert (K9' : (ns_version s', curves s', patches s') =
      (if nanospline c then (ns_version s, map (curve_via a r6) (curves s), map (patch_via a r6) (patches s))
       else (str "1.0", [], []))).
    { rewrite K9. destruct (nanospline c); [|reflexivity]. destruct (E4 eq_refl) as [-> ->]. reflexivity. }
    split; assumption.
  - destruct (GPIECE_file _ _ _ P) as (b & W & L). exists b. split; [exact W|]. split; [|intros _; exact L].
    intro Q. apply G in Q. discriminate.
Qed.
End Whole.
