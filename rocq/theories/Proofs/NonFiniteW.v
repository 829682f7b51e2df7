(** Whole files with "nan" or "inf" in them. *)

From Verif Require Import Model.Save Spec.NonFinite Spec.Steps Proofs.BytesP Proofs.RtBase Proofs.ShowP
  Proofs.WriteP Proofs.RtStep Proofs.Mono Proofs.Fuel Proofs.Reach Proofs.Compose Proofs.Rt41A Proofs.Rt41B
  Proofs.Rt41 Proofs.GuardP Proofs.NonFiniteP.

Ltac Zify.zify_post_hook ::= idtac.

(** ** From the finite part to the spec itself *)

Lemma fin0_id : forall x, finite x -> fin0 x = x.
Proof. intros x H. unfold fin0, finite in *. apply Z.eqb_neq in H. rewrite H. reflexivity. Qed.

Lemma fin0_ids : forall l, Forall finite l -> map fin0 l = l.
Proof.
  induction l as [|x l IH]; intro H; [reflexivity|]. inversion H; subst. cbn [map].
  rewrite fin0_id, IH by assumption. reflexivity.
Qed.

Lemma val_any : forall a x, dbl_ok a (via a fin0 x) -> (a = true -> size_ok x) -> dbl_ok false x.
Proof. intros [] x [H _] H'; (split; [|discriminate]); auto. Qed.

Lemma vals_any : forall a l, Forall (dbl_ok a) (map (via a fin0) l) -> (a = true -> Forall size_ok l) ->
  Forall (dbl_ok false) l.
Proof.
  intros a l H H'. rewrite Forall_map in H. rewrite Forall_forall in H. apply Forall_forall. intros x Hx.
  apply (val_any a); [auto|]. intro E. specialize (H' E). rewrite Forall_forall in H'. auto.
Qed.

Lemma node_block_any : forall c a b, node_block_ok c a (node_block_via true (via a fin0) b) ->
  (a = true -> Forall size_ok (nb_data b)) -> node_block_ok c false b.
Proof.
  intros c a b [H1 H2 H3 H4 H5 H6 H7 H8 H9 H10 H11] S. cbn [node_block_via nb_dim nb_tag nb_parametric nb_num nb_tags nb_data] in *.
  change (via true (via a fin0)) with (via a fin0) in *. rewrite zlen_map in H8, H11.
  split; try assumption; try discriminate. eapply vals_any; eassumption.
Qed.

Lemma nodes_any : forall c a n, nodes_ok c a (round_nodes (via a fin0) n) ->
  (a = true -> Forall size_ok (flat_map nb_data (n_blocks n))) ->
  nodes_ok c false n /\ (a = true -> ndebug c = false -> Forall (fun b => 0 <= nb_parametric b <= 3) (n_blocks n)).
Proof.
  intros c a n [H1 H2 H3 H4 H5] S. cbn [round_nodes n_num_blocks n_min n_max n_blocks] in *.
  rewrite zlen_map in H1, H4. rewrite Forall_map in H5. rewrite Forall_forall in H5. split.
  - split; try assumption. apply Forall_forall. intros b Hb. apply (node_block_any c a); [auto|].
    intro E. specialize (S E). rewrite Forall_forall in *. intros x Hx. apply S. apply in_flat_map. eauto.
  - intros E N. apply Forall_forall. intros b Hb. exact (nbo_par3 _ _ _ (H5 b Hb) E N).
Qed.

Lemma point_any : forall c a p, point_ok c a (point_via a fin0 p) ->
  (a = true -> Forall size_ok [pe_x p; pe_y p; pe_z p]) -> point_ok c false p.
Proof.
  intros c a p [H1 (H2 & H3 & H4) H5] S. cbn [point_via pe_tag pe_x pe_y pe_z pe_phys] in *.
  split; [exact H1| |exact H5].
  repeat split; try discriminate; (eapply val_any; [eassumption|]; intro E; specialize (S E);
    repeat match goal with H : Forall _ (_ :: _) |- _ => inversion H; clear H; subst end; assumption).
Qed.

Lemma entity_any : forall c a e, entity_ok c a (entity_via a fin0 e) ->
  (a = true -> Forall size_ok [en_min_x e; en_min_y e; en_min_z e; en_max_x e; en_max_y e; en_max_z e]) ->
  entity_ok c false e.
Proof.
  intros c a e [H1 (H2 & H3 & H4) (H5 & H6 & H7) H8 H9] S.
  cbn [entity_via en_tag en_min_x en_min_y en_min_z en_max_x en_max_y en_max_z en_phys en_bnd] in *.
  split; [exact H1| | |exact H8|exact H9];
  repeat split; try discriminate; (eapply val_any; [eassumption|]; intro E; specialize (S E);
    repeat match goal with H : Forall _ (_ :: _) |- _ => inversion H; clear H; subst end; assumption).
Qed.

Definition entity_doubles (en : Entities) : list dbl :=
  flat_map (fun p => [pe_x p; pe_y p; pe_z p]) (points en) ++
  flat_map (fun e => [en_min_x e; en_min_y e; en_min_z e; en_max_x e; en_max_y e; en_max_z e])
    (curves_e en ++ surfaces_e en ++ volumes_e en).

Lemma Forall_in : forall A B (f : A -> list B) P l x, Forall P (flat_map f l) -> In x l -> Forall P (f x).
Proof.
  intros A B f P l x H Hx. rewrite Forall_forall in *. intros y Hy. apply H. apply in_flat_map. eauto.
Qed.

Lemma entities_any : forall c a en, entities_ok c a (entities_via a fin0 en) ->
  (a = true -> Forall size_ok (entity_doubles en)) -> entities_ok c false en.
Proof.
  intros c a en [[H1 M1] [H2 M2] [H3 M3] [H4 M4]] S.
  cbn [entities_via points curves_e surfaces_e volumes_e] in *. rewrite zlen_map in *.
  rewrite Forall_map in *. rewrite Forall_forall in H1, H2, H3, H4.
  assert (S' : a = true -> Forall size_ok (flat_map (fun p => [pe_x p; pe_y p; pe_z p]) (points en)) /\
    Forall size_ok (flat_map (fun e => [en_min_x e; en_min_y e; en_min_z e; en_max_x e; en_max_y e; en_max_z e])
      (curves_e en ++ surfaces_e en ++ volumes_e en))).
  { intro E. specialize (S E). apply Forall_app in S. exact S. }
  split; (split; [apply Forall_forall; intros x Hx|assumption]).
  - apply (point_any c a); [auto|]. intro E. destruct (S' E) as [Q _]. exact (Forall_in _ _ _ _ _ x Q Hx).
  - apply (entity_any c a); [auto|]. intro E. destruct (S' E) as [_ Q]. apply (Forall_in _ _ _ _ _ x Q). rewrite !in_app_iff. auto.
  - apply (entity_any c a); [auto|]. intro E. destruct (S' E) as [_ Q]. apply (Forall_in _ _ _ _ _ x Q). rewrite !in_app_iff. auto.
  - apply (entity_any c a); [auto|]. intro E. destruct (S' E) as [_ Q]. apply (Forall_in _ _ _ _ _ x Q). rewrite !in_app_iff. auto.
Qed.

Lemma data_any : forall c a pn d, data_ok c a pn (finite_data a d) -> Forall size_ok (real_tags (d_header d)) ->
  (a = true -> Forall size_ok (flat_map de_data (d_entries d))) -> data_shape c pn d.
Proof.
  intros c a pn d [H1 H2 H3 H4 (i0 & k & l & E & H5) H6] R S.
  cbn [finite_data d_header d_entries string_tags real_tags int_tags] in *. rewrite zlen_map in *.
  split; try assumption. exists i0, k, l. split; [exact E|].
  rewrite Forall_map in H5. rewrite Forall_forall in H5. apply Forall_forall. intros e He.
  destruct (H5 e He) as [Q1 Q2 Q3 Q4 Q5]. cbn [de_tag de_npe de_data] in *. rewrite zlen_map in *.
  split; try assumption. apply (vals_any a); [exact Q4|]. intro Ea. exact (Forall_in _ _ _ _ _ e (S Ea) He).
Qed.

Lemma datas_any : forall c a pn ds, Forall (data_ok c a pn) (map (finite_data a) ds) ->
  Forall size_ok (flat_map (fun d => real_tags (d_header d)) ds) ->
  (a = true -> Forall size_ok (flat_map (fun d => flat_map de_data (d_entries d)) ds)) ->
  Forall (data_shape c pn) ds.
Proof.
  intros c a pn ds H R S. rewrite Forall_map in H. rewrite Forall_forall in H. apply Forall_forall. intros d Hd.
  apply (data_any c a); [auto|exact (Forall_in _ _ _ _ _ d R Hd)|].
  intro E. exact (Forall_in _ _ _ _ _ d (S E) Hd).
Qed.

Lemma curve_any : forall c a k, curve_ok c a (curve_via a fin0 k) -> (a = true -> Forall size_ok (cv_data k)) ->
  curve_ok c false k.
Proof.
  intros c a k [H1 H2 H3 H4] S. cbn [curve_via cv_tag cv_type cv_degree cv_ncp cv_nknots cv_weights cv_data] in *.
  rewrite zlen_map in *. split; try assumption. eapply vals_any; eassumption.
Qed.

Lemma patch_any : forall c a k, patch_ok c a (patch_via a fin0 k) -> (a = true -> Forall size_ok (pt_data k)) ->
  patch_ok c false k.
Proof.
  intros c a k [H1 H2 H3 H4] S.
  cbn [patch_via pt_tag pt_type pt_degu pt_degv pt_ncp pt_nu pt_nv pt_weights pt_data] in *.
  rewrite zlen_map in *. split; try assumption. eapply vals_any; eassumption.
Qed.

Lemma splines_any : forall c a s, splines_ok c a (finite_part a s) ->
  (a = true -> Forall size_ok (flat_map cv_data (curves s) ++ flat_map pt_data (patches s))) ->
  splines_ok c false s.
Proof.
  intros c a s [H1 [H2 M2] [H3 M3]] S. cbn [finite_part ns_version curves patches] in *.
  rewrite zlen_map in *. rewrite Forall_map in *. rewrite Forall_forall in H2, H3.
  split; [exact H1|split; [|exact M2]|split; [|exact M3]]; apply Forall_forall; intros k Hk.
  - apply (curve_any c a); [auto|]. intro E. specialize (S E). apply Forall_app in S. destruct S as [S _].
    exact (Forall_in _ _ _ _ _ k S Hk).
  - apply (patch_any c a); [auto|]. intro E. specialize (S E). apply Forall_app in S. destruct S as [_ S].
    exact (Forall_in _ _ _ _ _ k S Hk).
Qed.

(** ** The guards *)

Lemma forallb_flat : forall A B (f : A -> list B) g l,
  forallb (fun x => forallb g (f x)) l = forallb g (flat_map f l).
Proof.
  induction l as [|x l IH]; [reflexivity|]. cbn [forallb flat_map]. rewrite forallb_app, IH. reflexivity.
Qed.

Lemma forallb_all : forall A (g h : A -> bool) l, (forall x, g x = h x) -> forallb g l = forallb h l.
Proof. intros A g h l H. induction l as [|x l IH]; [reflexivity|]. cbn [forallb]. rewrite H, IH. reflexivity. Qed.

Lemma entities_guard : forall en, entities_good en = forallb is_finite (entity_doubles en).
Proof.
  intro en. unfold entities_good, entity_doubles. rewrite forallb_app, <- !forallb_flat, !forallb_app.
  f_equal.
Qed.

Definition data_doubles (a : bool) (d : Data) : list dbl :=
  real_tags (d_header d) ++ if a then flat_map de_data (d_entries d) else [].

Lemma data_guard : forall a d, data_good a d = forallb is_finite (data_doubles a d).
Proof.
  intros a d. unfold data_good, data_doubles. rewrite forallb_app. destruct a; [|reflexivity].
  rewrite forallb_flat. reflexivity.
Qed.

Definition spline_doubles (c : cfg) (a : bool) (s : MshSpec) : list dbl :=
  if a then if nanospline c then flat_map cv_data (curves s) ++ flat_map pt_data (patches s) else [] else [].

Lemma splines_guard : forall c a s, splines_good c a s = forallb is_finite (spline_doubles c a s).
Proof.
  intros c a s. unfold splines_good, spline_doubles, good_if. destruct a.
  - destruct (nanospline c); [|reflexivity]. rewrite forallb_app, !forallb_flat. reflexivity.
  - destruct (nanospline c); [|reflexivity].
    assert (T : forall A (l : list A), forallb (fun _ => true) l = true) by (induction l; auto).
    rewrite !T. reflexivity.
Qed.

Definition others_good (c : cfg) (a : bool) (s : MshSpec) : bool :=
  forallb (data_good a) (node_data s) && (forallb (data_good a) (element_data s) &&
  (forallb (data_good a) (element_node_data s) && splines_good c a s)).

Lemma Forall_finite : forall l, Forall size_ok l -> (forallb is_finite l = true <-> Forall finite l).
Proof.
  intros l H. rewrite Forall_forall in H. split; intro G.
  - rewrite forallb_forall in G. apply Forall_forall. intros. apply is_finite_finite; auto.
  - apply forallb_forall. rewrite Forall_forall in G. intros. apply finite_is_finite; auto.
Qed.

Lemma forallb_split : forall A (f g : A -> list dbl) h l,
  forallb h (flat_map (fun x => f x ++ g x) l) = forallb h (flat_map f l) && forallb h (flat_map g l).
Proof.
  intros A f g h l. induction l as [|x l IH]; [reflexivity|]. cbn [flat_map]. rewrite !forallb_app, IH.
  destruct (forallb h (f x)), (forallb h (g x)), (forallb h (flat_map f l)); reflexivity.
Qed.

Lemma others_guard : forall c a s, others_good c a s = forallb is_finite (other_doubles c a s).
Proof.
  intros c a s. unfold others_good.
  assert (D : forall l, forallb (data_good a) l = forallb is_finite (flat_map (fun d => real_tags (d_header d)) l) &&
    (if a then forallb is_finite (flat_map (fun d => flat_map de_data (d_entries d)) l) else true)).
  { intro l. rewrite (forallb_all _ _ _ l (data_guard a)), forallb_flat. unfold data_doubles. rewrite forallb_split.
    destruct a; [reflexivity|]. f_equal. induction l as [|x l IH]; [reflexivity|]. exact IH. }
  rewrite !D, splines_guard. unfold other_doubles, all_data, spline_doubles.
  rewrite forallb_app, !flat_map_app, !forallb_app.
  destruct a; rewrite ?forallb_app, ?flat_map_app, ?forallb_app;
  repeat match goal with |- context [forallb is_finite ?l] =>
    lazymatch l with [] => cbn [forallb] | _ => let b := fresh "b" in set (b := forallb is_finite l); clearbody b end end;
  repeat match goal with b : bool |- _ => destruct b end; reflexivity.
Qed.

(** ** 4.1 *)

Definition good41 (c : cfg) (a : bool) (s : MshSpec) : bool :=
  (if a then entities_good (entities s) else true) && ((if a then nodes_good (nodes s) else true) &&
  others_good c a s).

Lemma guard41 : forall c a s, good41 c a s = forallb is_finite (written41 c a s).
Proof.
  intros c a s. unfold good41, written41. rewrite others_guard, forallb_app. destruct a; [|reflexivity].
  rewrite entities_guard. unfold nodes_good. rewrite forallb_flat. unfold entity_doubles.
  rewrite !forallb_app. destruct (n_num_nodes (nodes s) =? 0); cbn [forallb];
    destruct (forallb is_finite (flat_map _ (points _))); destruct (forallb is_finite (flat_map _ (curves_e _ ++ _)));
    try reflexivity; destruct (forallb is_finite (flat_map nb_data _)); reflexivity.
Qed.

Lemma gpiece41 : forall c a s, consistent41 c a (finite_part a s) -> Forall size_ok (written41 c a s) ->
  GPIECE (good41 c a s) c (save_msh c s) spec_default (via41 a r6 (nanospline c) s).
Proof.
  intros c a s [Hv Ht Hd [Kg Knn Kn Kne Ke Knd Ked Kend] Hen Hns] HS.
  cbn [finite_part mesh_format nodes elements entities physical_groups node_data element_data element_node_data] in *.
  unfold written41 in HS. apply Forall_app in HS. destruct HS as [HS1 HS2].
  unfold other_doubles, all_data in HS2. apply Forall_app in HS2. destruct HS2 as [HR HO].
  rewrite !flat_map_app, !Forall_app in HR. destruct HR as (HR1 & HR2 & HR3).
  assert (HO' : a = true -> Forall size_ok (flat_map (fun d => flat_map de_data (d_entries d))
      (node_data s ++ element_data s ++ element_node_data s)) /\
    Forall size_ok (if nanospline c then flat_map cv_data (curves s) ++ flat_map pt_data (patches s) else [])).
  { intros ->. apply Forall_app in HO. exact HO. }
  assert (HS' : a = true -> Forall size_ok (if n_num_nodes (nodes s) =? 0 then [] else flat_map nb_data (n_blocks (nodes s))) /\
    Forall size_ok (entity_doubles (entities s))).
  { intros ->. apply Forall_app in HS1. exact HS1. }
  assert (Kn' : n_num_nodes (nodes s) <> 0 -> nodes_ok c false (nodes s) /\
     (a = true -> ndebug c = false -> Forall (fun b => 0 <= nb_parametric b <= 3) (n_blocks (nodes s)))).
  { intro N. apply nodes_any; [auto|]. intro E. destruct (HS' E) as [Q _].
    replace (n_num_nodes (nodes s) =? 0) with false in Q by (symmetry; apply Z.eqb_neq; exact N). exact Q. }
  assert (D : forall pn ds, Forall (data_ok c a pn) (map (finite_data a) ds) ->
    Forall size_ok (flat_map (fun d => real_tags (d_header d)) ds) ->
    incl ds (node_data s ++ element_data s ++ element_node_data s) -> Forall (data_shape c pn) ds).
  { intros pn ds Q1 Q2 Q3. apply (datas_any c a); auto. intro E. destruct (HO' E) as [Q _].
    apply Forall_forall. intros x Hx. apply in_flat_map in Hx. destruct Hx as (d & Hd1 & Hd2).
    rewrite Forall_forall in Q. apply Q. apply in_flat_map. exists d. auto. }
  assert (Ht' : file_type (mesh_format s) = ftype a) by exact Ht.
  assert (F : fmt41 a s) by (split; assumption).
  assert (P : GPIECE (true && (true && (((if a then entities_good (entities s) else true)) && ((if a then nodes_good (nodes s) else true) &&
      (true && others_good c a s))))) c (save_msh c s) spec_default
    (ns_via c a s
    (set_element_node_data (map (data_via a r6) (element_node_data s))
    (set_element_data (map (data_via a r6) (element_data s))
    (set_node_data (map (data_via a r6) (node_data s))
    (set_elements (elements_via (elements s))
    (set_nodes (nodes_via a r6 (nodes s))
    (set_entities (entities_via a r6 (entities s))
    (set_physical_groups (physical_groups s)
    (set_format (mesh_format s) spec_default)))))))))).
  { unfold save_msh, others_good.
    eapply GPIECE_seq; [apply PIECE_G, format_PIECE; [left; exact Hv| |left; exact Hd]|].
    { rewrite Ht'. destruct a; auto. }
    eapply GPIECE_seq; [apply PIECE_G, groups_PIECE; [exact Kg|reflexivity]|].
    eapply GPIECE_seq; [apply (entities_GPIECE c a); auto|].
    { apply (entities_any c a); [exact Hen|]. intro E. apply HS'. exact E. }
    eapply GPIECE_seq; [apply (nodes_GPIECE c a); auto|].
    { intro N. apply Kn'. exact N. }
    { intro N. apply Kn'. exact N. }
    eapply GPIECE_seq; [apply PIECE_G, (elements_PIECE c a); auto|].
    eapply GPIECE_seq; [apply (node_data_GPIECE c v41s a); auto|].
    { apply D; auto. intros x Hx. rewrite !in_app_iff. auto. }
    eapply GPIECE_seq; [apply (element_data_GPIECE c v41s a); auto|].
    { apply D; auto. intros x Hx. rewrite !in_app_iff. auto. }
    eapply GPIECE_seq; [apply (element_node_data_GPIECE c v41s a); auto|].
    { apply D; auto. intros x Hx. rewrite !in_app_iff. auto. }
    apply (splines_GPIECE c v41s a); auto. intro N. apply (splines_any c a); [auto|].
    intro E. destruct (HO' E) as [_ Q]. rewrite N in Q. exact Q. }
  cbn [andb] in P. fold (good41 c a s) in P.
  match type of P with GPIECE _ _ _ _ ?x => set (res := x) in * end.
  assert (R : res = via41 a r6 (nanospline c) s).
  { unfold res, ns_via, via41. destruct (nanospline c); reflexivity. }
  rewrite R in P. exact P.
Qed.

Theorem nonfinite41 : forall c a s, consistent41 c a (finite_part a s) -> Forall size_ok (written41 c a s) ->
  exists b, save_msh c s = (b, Ok tt) /\
    (Forall finite (written41 c a s) -> load_msh c b = Ok (via41 a r6 (nanospline c) s)) /\
    (~ Forall finite (written41 c a s) -> forall s', load_msh c b <> Ok s').
Proof.
  intros c a s H HS. pose proof (gpiece41 c a s H HS) as P. pose proof (Forall_finite _ HS) as G.
  rewrite <- guard41 in G. destruct (good41 c a s) eqn:E.
  - destruct P as (b & W & L). exists b. split; [exact W|]. split.
    + intros _. rewrite (LOADS_file c b _ L). unfold post_process.
      replace (version (mesh_format (via41 a r6 (nanospline c) s))) with v41s by (symmetry; apply H). reflexivity.
    + intro N. destruct N. apply G. reflexivity.
  - destruct (GPIECE_file _ _ _ P) as (b & W & L). exists b. split; [exact W|]. split; [|intros _; exact L].
    intro Q. apply G in Q. discriminate.
Qed.
