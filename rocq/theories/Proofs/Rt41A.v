(** 4.1 ASCII: each section's text and its reading. *)

From Verif Require Import Model.Save Spec.Consistent Proofs.BytesP Proofs.RtBase Proofs.ShowP
  Proofs.WriteP Proofs.RtStep.

Ltac Zify.zify_post_hook ::= idtac.

Lemma fits_size_ok' : forall c sz A (l : list A), fits c sz (zlen l) -> 0 < sz -> size_ok (zlen l).
Proof. intros. eapply fits_size_ok; eauto. Qed.

Notation r6 := ascii_round.

(** Apply the step lemma for the head of the reader. *)
Ltac rt1 :=
  first
  [ eapply RT_int; [ | |nonnil| ]
  | eapply RT_size; [ | |nonnil| ]
  | eapply RT_int_opt; [ | |nonnil| ]
  | eapply RT_size_opt; [ | |nonnil| ]
  | eapply RT_double; [ | | |nonnil| ]
  | eapply RT_quoted; [ | ]
  | eapply RT_bind0; [ intros; first [apply assert_good_ok; assumption | reflexivity] | ] ];
  try apply ws_sp; try apply ws_endl; try assumption.

Ltac rtlast := rewrite <- (app_nil_r endl).

Section Printed.
Context {print : printer} {back : rounder} {RBK : reads_back print back}.

(** ** Nodes *)

Definition node_block_text (b : NodeBlock) : bytes :=
  show_Z (nb_dim b) ++ sp ++ show_Z (nb_tag b) ++ sp ++ show_Z (nb_parametric b) ++ sp ++
  show_Z (nb_num b) ++ endl ++
  List.concat (map (fun t => show_Z t ++ endl) (nb_tags b)) ++
  List.concat (map (line print) (rows (nb_num b) (node_width b) (nb_data b))).

Lemma save_node_block_a : forall c a b, node_block_ok c a b ->
  v41_save_node_block_ascii b = (node_block_text b, Ok tt).
Proof.
  intros c a b H. destruct H as [Hd Ht Hp Hp3 Hn Hts Hw Hdat Hv Hm1 Hm2].
  unfold v41_save_node_block_ascii, node_block_text.
  erewrite wseq_ok; [|apply out_ok|].
  2:{ apply wseq_ok.
      - rewrite iota_at_all by exact Hn. apply wfor_ok. intros. reflexivity.
      - eapply wlet_ok; [apply epn_ok; exact Hw|]. cbv beta. apply wfor_rows_lines.
        + rewrite Hn. apply zlen_nonneg.
        + lia.
        + exact Hdat.
        + rewrite <- Hdat. pose proof (fits_size_ok' _ _ _ _ Hm2 eq_refl) as [_ Q]. lia.
        + intro k. destruct (k =? node_width b - 1) eqn:E1, (k + 1 =? node_width b) eqn:E2; lia. }
  rewrite <- !app_assoc. reflexivity.
Qed.

Lemma load_node_block_a : forall c b b0, node_block_ok c true b ->
  RT (v41_node_block_ascii c b0) (node_block_text b) (node_block_via true back b).
Proof.
  intros c b b0 H. destruct H as [Hd Ht Hp Hp3 Hn Hts Hw Hdat Hv Hm1 Hm2].
  unfold v41_node_block_ascii, node_block_text.
  pose proof (fits_size_ok' _ _ _ _ Hm1 eq_refl) as Hs1.
  pose proof (fits_size_ok' _ _ _ _ Hm2 eq_refl) as Hs2.
  do 4 rt1; [rewrite Hn; exact Hs1|]. rt1.
  destruct (fits_resize Z c sz_size 0 (nb_num b) (nb_tags b0)) as (v1 & E1 & L1);
    [reflexivity|rewrite Hn; apply zlen_nonneg|rewrite Hn; exact Hm1|].
  eapply RT_bind0; [intros; apply lift_ok; exact E1|].
  eapply RT_bind.
  { apply (mapM_sizes (nb_tags b)); [apply spaced_each|exact Hts|]. apply zlen_length. congruence. }
  rt1. eapply RT_bind0.
  { intros. apply massert_ok. destruct (ndebug c) eqn:N; [right; reflexivity|left].
    specialize (Hp3 eq_refl eq_refl). apply andb_true_iff. split; apply Z.leb_le; lia. }
  eapply RT_bind0; [intros; apply lift_ok; apply epn_ok; exact Hw|].
  destruct (fits_resize Z c sz_double 0 (zlen (nb_data b)) (nb_data b0)) as (v2 & E2 & L2);
    [reflexivity|apply zlen_nonneg|exact Hm2|].
  eapply RT_bind0.
  { intros. apply lift_ok. rewrite <- Hdat. rewrite to_size_id by exact Hs2. exact E2. }
  rewrite fill_ok by (rewrite <- Hdat; symmetry; assumption).
  eapply RT_last.
  { apply (mapM_doubles (nb_data b)).
    - rewrite <- (concat_rows _ (nb_data b) (nb_num b) (node_width b)) at 1;
        [apply spaced_lines|rewrite Hn; apply zlen_nonneg|lia|exact Hdat].
    - exact Hv.
    - apply zlen_length. exact L2. }
  rt1. apply RT_ret.
Qed.

Definition nodes_text (n : Nodes) : bytes :=
  show_Z (n_num_blocks n) ++ sp ++ show_Z (n_num_nodes n) ++ sp ++ show_Z (n_min n) ++ sp ++
  show_Z (n_max n) ++ endl ++ List.concat (map node_block_text (n_blocks n)).

Lemma save_nodes_a : forall c a n, nodes_ok c a n -> v41_save_nodes_ascii n = (nodes_text n, Ok tt).
Proof.
  intros c a n H. destruct H as [Hn Hmin Hmax Hm Hb]. unfold v41_save_nodes_ascii, nodes_text.
  erewrite wseq_ok; [|apply out_ok|].
  2:{ rewrite iota_at_all by exact Hn. apply wfor_ok. intros b Hin.
      rewrite Forall_forall in Hb. eapply save_node_block_a; eauto. }
  rewrite <- !app_assoc. reflexivity.
Qed.

Lemma load_nodes_a : forall c n n0, nodes_ok c true n -> size_ok (n_num_nodes n) ->
  RT (v41_load_nodes_ascii c n0) (nodes_text n)
     {| n_num_blocks := n_num_blocks n; n_num_nodes := n_num_nodes n; n_min := n_min n;
        n_max := n_max n; n_blocks := map (node_block_via true back) (n_blocks n) |}.
Proof.
  intros c n n0 H Hnn. destruct H as [Hn Hmin Hmax Hm Hb]. unfold v41_load_nodes_ascii, nodes_text.
  pose proof (fits_size_ok' _ _ _ _ Hm eq_refl) as Hs.
  rt1; [rewrite Hn; exact Hs|]. do 4 rt1.
  destruct (fits_resize NodeBlock c sz_NodeBlock nb_default (n_num_blocks n) (n_blocks n0)) as (v1 & E1 & L1);
    [reflexivity|rewrite Hn; apply zlen_nonneg|rewrite Hn; exact Hm|].
  eapply RT_bind0; [intros; apply lift_ok; exact E1|].
  eapply RT_last; [|apply RT_ret].
  apply mapM_RT'; [apply zlen_length; congruence|].
  intros x b _ Hin. apply load_node_block_a. rewrite Forall_forall in Hb. auto.
Qed.

(** ** Elements *)

Definition element_block_text (n : Z) (b : ElementBlock) : bytes :=
  show_Z (eb_dim b) ++ sp ++ show_Z (eb_tag b) ++ sp ++ show_Z (eb_type b) ++ sp ++
  show_Z (eb_num b) ++ endl ++
  List.concat (map (line show_Z) (rows (eb_num b) (n + 1) (eb_data b))).

Definition npe (b : ElementBlock) : Z := match gmsh_nodes (eb_type b) with Some n => n | None => 0 end.

Lemma save_element_block_a : forall c b, element_block_ok c b ->
  v41_save_element_block_ascii b = (element_block_text (npe b) b, Ok tt).
Proof.
  intros c b H. destruct H as [Hd Ht Hn Hdat Hv Hm]. destruct Hdat as (n & Hg & Hl).
  unfold npe. rewrite Hg. apply gmsh_nodes_spec in Hg. destruct Hg as (Hg & Hn1 & Hty).
  unfold v41_save_element_block_ascii, element_block_text.
  erewrite wseq_ok; [|apply out_ok|].
  2:{ eapply wlet_ok; [exact Hg|]. cbv beta. apply wfor_rows_lines.
      + destruct Hn; assumption.
      + lia.
      + exact Hl.
      + rewrite <- Hl. pose proof (fits_size_ok' _ _ _ _ Hm eq_refl) as [_ Q]. lia.
      + intro k. destruct (k =? n) eqn:E1, (k + 1 =? n + 1) eqn:E2; lia. }
  rewrite <- !app_assoc. reflexivity.
Qed.

Lemma element_block_eta : forall b,
  {| eb_dim := eb_dim b; eb_tag := eb_tag b; eb_type := eb_type b; eb_num := eb_num b;
     eb_data := eb_data b |} = b.
Proof. destruct b; reflexivity. Qed.

Lemma load_element_block_a : forall c b b0, element_block_ok c b ->
  RT (v41_element_block_ascii c b0) (element_block_text (npe b) b) b.
Proof.
  intros c b b0 H. destruct H as [Hd Ht Hn Hdat Hv Hm]. destruct Hdat as (n & Hg & Hl).
  unfold npe. rewrite Hg. apply gmsh_nodes_spec in Hg. destruct Hg as (Hg & Hn1 & Hty).
  unfold v41_element_block_ascii, element_block_text.
  pose proof (fits_size_ok' _ _ _ _ Hm eq_refl) as Hs.
  do 3 rt1; [unfold int_ok, INT_MIN, INT_MAX; lia|]. rt1.
  eapply RT_bind0; [intros; apply lift_ok; exact Hg|].
  destruct (fits_resize Z c sz_size 0 (zlen (eb_data b)) (eb_data b0)) as (v1 & E1 & L1);
    [reflexivity|apply zlen_nonneg|exact Hm|].
  eapply RT_bind0.
  { intros. apply lift_ok. rewrite <- Hl. rewrite to_size_id by exact Hs. exact E1. }
  rewrite fill_ok by (rewrite <- Hl; symmetry; assumption).
  eapply RT_last.
  { apply (mapM_sizes (eb_data b)).
    - rewrite <- (concat_rows _ (eb_data b) (eb_num b) (n + 1)) at 1;
        [apply spaced_lines|destruct Hn; assumption|lia|exact Hl].
    - exact Hv.
    - apply zlen_length. exact L1. }
  rt1. rewrite <- (element_block_eta b) at 6. apply RT_ret.
Qed.

Definition elements_text (e : Elements) : bytes :=
  show_Z (e_num_blocks e) ++ sp ++ show_Z (e_num_elements e) ++ sp ++ show_Z (e_min e) ++ sp ++
  show_Z (e_max e) ++ endl ++ List.concat (map (fun b => element_block_text (npe b) b) (e_blocks e)).

Lemma save_elements_a : forall c e, elements_ok c e ->
  v41_save_elements_ascii e = (elements_text e, Ok tt).
Proof.
  intros c n H. destruct H as [Hn Hmin Hmax Hm Hb]. unfold v41_save_elements_ascii, elements_text.
  erewrite wseq_ok; [|apply out_ok|].
  2:{ rewrite iota_at_all by exact Hn. apply wfor_ok. intros b Hin.
      rewrite Forall_forall in Hb. apply (save_element_block_a c b). auto. }
  rewrite <- !app_assoc. reflexivity.
Qed.

Lemma elements_eta : forall e,
  {| e_num_blocks := e_num_blocks e; e_num_elements := e_num_elements e; e_min := e_min e;
     e_max := e_max e; e_blocks := e_blocks e |} = e.
Proof. destruct e; reflexivity. Qed.

Lemma load_elements_a : forall c e e0, elements_ok c e -> size_ok (e_num_elements e) ->
  RT (v41_load_elements_ascii c e0) (elements_text e) e.
Proof.
  intros c e e0 H Hnn. destruct H as [Hn Hmin Hmax Hm Hb]. unfold v41_load_elements_ascii, elements_text.
  pose proof (fits_size_ok' _ _ _ _ Hm eq_refl) as Hs.
  rt1; [rewrite Hn; exact Hs|]. do 4 rt1.
  destruct (fits_resize ElementBlock c sz_ElementBlock eb_default (e_num_blocks e) (e_blocks e0)) as (v1 & E1 & L1);
    [reflexivity|rewrite Hn; apply zlen_nonneg|rewrite Hn; exact Hm|].
  eapply RT_bind0; [intros; apply lift_ok; exact E1|].
  eapply RT_last.
  - apply (mapM_RT' _ (fun b => element_block_text (npe b) b) (fun b => b)); [apply zlen_length; congruence|].
    intros x b _ Hin. apply load_element_block_a. rewrite Forall_forall in Hb. auto.
  - rewrite map_id, elements_eta. apply RT_ret.
Qed.

(** ** Entities *)

Definition ints_text (l : list Z) : bytes :=
  show_Z (zlen l) ++ List.concat (map (fun x => sp ++ show_Z x) l).

Lemma out_ints_ok : forall l, out_ints l = (ints_text l, Ok tt).
Proof.
  intro l. unfold out_ints, ints_text. apply wseq_ok; [reflexivity|].
  apply wfor_ok. intros; reflexivity.
Qed.

Lemma load_ints_a : forall c old l sep, ints_ok c l -> ws sep -> sep <> [] ->
  RT (ints_ascii c old) (ints_text l ++ sep) l.
Proof.
  intros c old l sep [Hi Hm] Hs Hn. unfold ints_ascii, ints_text. rewrite <- app_assoc.
  destruct (spaced_lead _ show_Z l sep Hs Hn) as (s1 & t1 & W1 & N1 & SP & ->).
  eapply RT_size_opt; [eapply fits_size_ok; [|exact Hm]; reflexivity|exact W1|exact N1|].
  eapply RT_bind0; [intros; reflexivity|].
  destruct (fits_resize Z c sz_int 0 (zlen l) old) as (v1 & E1 & L1);
    [reflexivity|apply zlen_nonneg|exact Hm|].
  eapply RT_bind0; [intros; apply lift_ok; exact E1|].
  apply mapM_ints; [exact SP|exact Hi|apply zlen_length; exact L1].
Qed.

Lemma RT_ints : forall B c old l sep (f : list Z -> M B) t b, ints_ok c l -> ws sep -> sep <> [] ->
  RT (f l) t b -> RT (bind (ints_ascii c old) f) (ints_text l ++ sep ++ t) b.
Proof. intros. rewrite app_assoc. eapply RT_bind; [apply load_ints_a|]; eassumption. Qed.

Definition point_text (p : PointEntity) : bytes :=
  show_Z (pe_tag p) ++ sp ++ print (pe_x p) ++ sp ++ print (pe_y p) ++ sp ++
  print (pe_z p) ++ sp ++ ints_text (pe_phys p) ++ endl.

Lemma save_point_a : forall p, save_point_ascii p = (point_text p, Ok tt).
Proof.
  intro p. unfold save_point_ascii, point_text.
  erewrite wseq_ok; [|apply out_ok|apply wseq_ok; [apply out_ints_ok|apply out_ok]].
  rewrite <- !app_assoc. reflexivity.
Qed.

End Printed.

Ltac dbls :=
  repeat match goal with H : dbl_ok true _ |- _ => apply dbl_ok_a in H; destruct H end.

Section Printed.
Context {print : printer} {back : rounder} {RBK : reads_back print back}.

Lemma load_point_a : forall c p p0, point_ok c true p ->
  RT (point_ascii c p0) (point_text p) (point_via true back p).
Proof.
  intros c p p0 H. destruct H as [Ht (Hx & Hy & Hz) Hp]. dbls.
  unfold point_ascii, point_text. do 4 rt1.
  rewrite <- (app_nil_r endl).
  eapply RT_ints; [exact Hp|apply ws_endl|discriminate|]. apply RT_ret.
Qed.

Definition entity_text (e : Entity) : bytes :=
  show_Z (en_tag e) ++ sp ++
  print (en_min_x e) ++ sp ++ print (en_min_y e) ++ sp ++ print (en_min_z e) ++ sp ++
  print (en_max_x e) ++ sp ++ print (en_max_y e) ++ sp ++ print (en_max_z e) ++ sp ++
  ints_text (en_phys e) ++ sp ++ ints_text (en_bnd e) ++ endl.

Lemma save_entity_a : forall e, save_entity_ascii e = (entity_text e, Ok tt).
Proof.
  intro p. unfold save_entity_ascii, entity_text.
  erewrite wseq_ok; [|apply out_ok|
    apply wseq_ok; [apply out_ints_ok|apply wseq_ok; [apply out_ok|apply wseq_ok; [apply out_ints_ok|apply out_ok]]]].
  rewrite <- !app_assoc. reflexivity.
Qed.

Lemma load_entity_a : forall c e e0, entity_ok c true e ->
  RT (entity_ascii c e0) (entity_text e) (entity_via true back e).
Proof.
  intros c e e0 H. destruct H as [Ht (Hx & Hy & Hz) (Hx1 & Hy1 & Hz1) Hp Hb]. dbls.
  unfold entity_ascii, entity_text. do 7 rt1.
  eapply RT_ints; [exact Hp|apply ws_sp|discriminate|].
  rewrite <- (app_nil_r endl).
  eapply RT_ints; [exact Hb|apply ws_endl|discriminate|]. apply RT_ret.
Qed.

Definition entities_text (en : Entities) : bytes :=
  show_Z (zlen (points en)) ++ sp ++ show_Z (zlen (curves_e en)) ++ sp ++
  show_Z (zlen (surfaces_e en)) ++ sp ++ show_Z (zlen (volumes_e en)) ++ endl ++
  List.concat (map point_text (points en)) ++
  List.concat (map entity_text (curves_e en)) ++
  List.concat (map entity_text (surfaces_e en)) ++
  List.concat (map entity_text (volumes_e en)).

Lemma save_entities_a : forall en, v41_save_entities_ascii en = (entities_text en, Ok tt).
Proof.
  intro en. unfold v41_save_entities_ascii, entities_text.
  erewrite wseq_ok; [|apply out_ok|].
  2:{ repeat apply wseq_ok; apply wfor_ok; intros; [apply save_point_a|apply save_entity_a..]. }
  rewrite <- !app_assoc. reflexivity.
Qed.

Lemma resize_entities_ok : forall c a en en0, entities_ok c a en ->
  exists en1, (forall s, resize_entities c (Some (zlen (points en))) (Some (zlen (curves_e en)))
    (Some (zlen (surfaces_e en))) (Some (zlen (volumes_e en))) en0 s = Ok (en1, s)) /\
  List.length (points en1) = List.length (points en) /\
  List.length (curves_e en1) = List.length (curves_e en) /\
  List.length (surfaces_e en1) = List.length (surfaces_e en) /\
  List.length (volumes_e en1) = List.length (volumes_e en).
Proof.
  intros c a en en0 [[_ H1] [_ H2] [_ H3] [_ H4]].
  destruct (fits_resize PointEntity c sz_PointEntity pe_default (zlen (points en)) (points en0)) as (v1 & E1 & L1);
    [reflexivity|apply zlen_nonneg|exact H1|].
  destruct (fits_resize Entity c sz_Entity en_default (zlen (curves_e en)) (curves_e en0)) as (v2 & E2 & L2);
    [reflexivity|apply zlen_nonneg|exact H2|].
  destruct (fits_resize Entity c sz_Entity en_default (zlen (surfaces_e en)) (surfaces_e en0)) as (v3 & E3 & L3);
    [reflexivity|apply zlen_nonneg|exact H3|].
  destruct (fits_resize Entity c sz_Entity en_default (zlen (volumes_e en)) (volumes_e en0)) as (v4 & E4 & L4);
    [reflexivity|apply zlen_nonneg|exact H4|].
  exists {| points := v1; curves_e := v2; surfaces_e := v3; volumes_e := v4 |}.
  split.
  - intro s. unfold resize_entities, bind, lift, use, ret. rewrite E1, E2, E3, E4. reflexivity.
  - cbn [points curves_e surfaces_e volumes_e]. repeat split; apply zlen_length; assumption.
Qed.

Lemma load_entities_a : forall c en en0, entities_ok c true en ->
  RT (v41_load_entities_ascii c en0) (entities_text en) (entities_via true back en).
Proof.
  intros c en en0 H. pose proof (resize_entities_ok c true en en0 H) as (en1 & ER & L1 & L2 & L3 & L4).
  destruct H as [[F1 H1] [F2 H2] [F3 H3] [F4 H4]]. rewrite Forall_forall in F1, F2, F3, F4.
  unfold v41_load_entities_ascii, entities_text.
  rt1; [eapply fits_size_ok; [|exact H1]; reflexivity|].
  rt1; [eapply fits_size_ok; [|exact H2]; reflexivity|].
  rt1; [eapply fits_size_ok; [|exact H3]; reflexivity|].
  rt1; [eapply fits_size_ok; [|exact H4]; reflexivity|].
  rt1. eapply RT_bind0; [intros; apply ER|].
  eapply RT_bind; [apply (mapM_RT' _ point_text (point_via true back)); [exact L1|intros; apply load_point_a; auto]|].
  eapply RT_bind; [apply (mapM_RT' _ entity_text (entity_via true back)); [exact L2|intros; apply load_entity_a; auto]|].
  eapply RT_bind; [apply (mapM_RT' _ entity_text (entity_via true back)); [exact L3|intros; apply load_entity_a; auto]|].
  eapply RT_last; [apply (mapM_RT' _ entity_text (entity_via true back)); [exact L4|intros; apply load_entity_a; auto]|].
  rt1. apply RT_ret.
Qed.

(** ** Physical groups (the same text in every encoding) *)

Definition group_text (g : PhysicalGroup) : bytes :=
  show_Z (pg_dim g) ++ sp ++ show_Z (pg_tag g) ++ sp ++ quoted (pg_name g) ++ endl.

Definition groups_text (gs : list PhysicalGroup) : bytes :=
  show_Z (zlen gs) ++ endl ++ List.concat (map group_text gs).

Lemma load_group_RT : forall g0 g, int_ok (pg_dim g) -> int_ok (pg_tag g) ->
  RT (load_group g0) (group_text g) g.
Proof.
  intros g0 g H1 H2. unfold load_group, group_text. rewrite <- (app_nil_r endl).
  do 3 rt1. destruct g. apply RT_ret.
Qed.

Lemma load_groups_RT : forall c spec gs, groups_ok c gs ->
  RT (load_physical_groups c spec) (groups_text gs) (set_physical_groups gs spec).
Proof.
  intros c spec gs [Ha Hn Hm]. unfold load_physical_groups, groups_text.
  pose proof (zlen_nonneg _ gs).
  rt1; [unfold int_ok, INT_MIN; lia|]. eapply RT_bind0; [intros; reflexivity|].
  destruct (fits_resize PhysicalGroup c sz_PhysicalGroup pg_default (zlen gs) (physical_groups spec)) as (v1 & E1 & L1);
    [reflexivity|lia|exact Hm|].
  eapply RT_bind0.
  { intros. apply lift_ok. rewrite to_size_id by (unfold INT_MAX, two64 in *; lia). exact E1. }
  eapply RT_last.
  - apply (mapM_RT' _ group_text (fun g => g)); [apply zlen_length; exact L1|].
    intros x g _ Hin. rewrite Forall_forall in Ha. destruct (Ha g Hin). apply load_group_RT; assumption.
  - rt1. rewrite map_id. apply RT_ret.
Qed.

(** ** Data sections *)

Definition header_text (h : DataHeader) : bytes :=
  show_Z (zlen (string_tags h)) ++ endl ++
  List.concat (map (fun t => quoted t ++ endl) (string_tags h)) ++
  show_Z (zlen (real_tags h)) ++ endl ++
  List.concat (map (fun t => print t ++ endl) (real_tags h)) ++
  show_Z (zlen (int_tags h)) ++ endl ++
  List.concat (map (fun t => show_Z t ++ endl) (int_tags h)).

Lemma save_header_ok : forall h, save_data_header h = (header_text h, Ok tt).
Proof.
  intro h. unfold save_data_header, header_text.
  erewrite wseq_ok; [|apply out_ok|].
  2:{ apply wseq_ok; [apply wfor_ok; intros; reflexivity|].
      apply wseq_ok; [apply out_ok|]. apply wseq_ok; [apply wfor_ok; intros; reflexivity|].
      apply wseq_ok; [apply out_ok|]. apply wfor_ok; intros; reflexivity. }
  rewrite <- !app_assoc. reflexivity.
Qed.

Definition header_via (h : DataHeader) : DataHeader :=
  {| string_tags := string_tags h; real_tags := map back (real_tags h); int_tags := int_tags h |}.

Lemma load_header_RTe : forall c h,
  fits c sz_string (zlen (string_tags h)) ->
  Forall (fun x => size_ok x /\ finite x) (real_tags h) ->
  fits c sz_double (zlen (real_tags h)) ->
  ints_ok c (int_tags h) -> int_tags h <> [] ->
  RTe (load_data_header c) (header_text h) (header_via h).
Proof.
  intros c h Hs Hr Hrm [Hi Him] Hne. unfold load_data_header, header_text.
  eapply RTe_size_opt; [eapply fits_size_ok; [|exact Hs]; reflexivity|apply ws_endl|discriminate|].
  eapply RTe_bind0; [intros; reflexivity|].
  destruct (fits_resize bytes c sz_string [] (zlen (string_tags h)) []) as (v1 & E1 & L1);
    [reflexivity|apply zlen_nonneg|exact Hs|].
  eapply RTe_bind0; [intros; apply lift_ok; exact E1|].
  eapply RTe_bind.
  { apply (mapM_RT' _ (fun t => quoted t ++ endl) (fun t => t)); [apply zlen_length; exact L1|].
    intros. apply rd_quoted_RT. apply ws_endl. }
  eapply RTe_size_opt; [eapply fits_size_ok; [|exact Hrm]; reflexivity|apply ws_endl|discriminate|].
  eapply RTe_bind0; [intros; reflexivity|].
  destruct (fits_resize Z c sz_double 0 (zlen (real_tags h)) []) as (v2 & E2 & L2);
    [reflexivity|apply zlen_nonneg|exact Hrm|].
  eapply RTe_bind0; [intros; apply lift_ok; exact E2|].
  eapply RTe_bind.
  { apply (mapM_RT' _ (fun t => print t ++ endl) back); [apply zlen_length; exact L2|].
    intros x v _ Hv. rewrite Forall_forall in Hr. destruct (Hr v Hv) as [Q1 Q2].
    apply rd_back_RT; [exact Q1|apply finite_is_finite; assumption|apply ws_endl|discriminate]. }
  eapply RTe_size_opt; [eapply fits_size_ok; [|exact Him]; reflexivity|apply ws_endl|discriminate|].
  eapply RTe_bind0; [intros; reflexivity|].
  destruct (fits_resize Z c sz_int 0 (zlen (int_tags h)) []) as (v3 & E3 & L3);
    [reflexivity|apply zlen_nonneg|exact Him|].
  eapply RTe_bind0; [intros; apply lift_ok; exact E3|].
  eapply RTe_map.
  { apply (mapM_RTe' _ (fun t => show_Z t ++ endl) (fun t => t)); [exact Hne|apply zlen_length; exact L3|].
    intros x v _ Hv. rewrite Forall_forall in Hi. apply rd_int_RTe. auto. }
  intros s Q1 Q2. unfold bind. rewrite assert_good_ok by assumption. cbn [ret].
  rewrite !map_id. reflexivity.
Qed.

Definition entry_text (per_node : bool) (e : DataEntry) : bytes :=
  show_Z (de_tag e) ++ sp ++ (if per_node then show_Z (de_npe e) ++ sp else []) ++
  line print (de_data e).

Lemma save_entry_a : forall pn e, save_entry_ascii pn e = (entry_text pn e, Ok tt).
Proof. intros. unfold save_entry_ascii, entry_text. rewrite out_doubles_line. reflexivity. Qed.

(** The number of doubles of an entry as the loader computes it. *)
Lemma fields_ok : forall c k npe (l : list dbl), int_ok k -> 0 <= npe <= INT_MAX -> zlen l = k * npe ->
  fits c sz_double (zlen l) -> to_size k * to_size npe = zlen l.
Proof.
  intros c k npe l Hk Hn Hl Hf. pose proof (zlen_nonneg _ l).
  rewrite (to_size_id npe) by (unfold INT_MAX, two64 in *; lia).
  unfold int_ok, INT_MIN, INT_MAX, two64 in *.
  destruct (Z.eq_dec npe 0) as [->|N]; [lia|].
  assert (0 <= k).
  { destruct (Z_lt_le_dec k 0); [|assumption]. rewrite Hl in *. assert (k * npe < 0) by (apply Z.mul_neg_pos; lia). lia. }
  rewrite to_size_id by (unfold two64; lia). lia.
Qed.

Lemma load_entry_a : forall c pn k e, int_ok k -> entry_ok c true pn k e ->
  RT (entry_ascii c (to_size k) pn de_default) (entry_text pn e) (entry_via true back e).
Proof.
  intros c pn k e Hk [Ht Hn Hl Hv Hm]. unfold entry_ascii, entry_text.
  rt1. pose proof (fits_size_ok' _ _ _ _ Hm eq_refl) as Hs.
  destruct (fits_resize Z c sz_double 0 (zlen (de_data e)) (de_data de_default)) as (v1 & E1 & L1);
    [reflexivity|apply zlen_nonneg|exact Hm|].
  destruct pn.
  - rewrite <- app_assoc. rt1; [unfold int_ok, INT_MIN; lia|].
    pose proof (fields_ok c k (de_npe e) (de_data e) Hk Hn Hl Hm) as F. rewrite F.
    eapply RT_bind0; [intros; apply lift_ok; rewrite to_size_id by exact Hs; exact E1|].
    rewrite fill_ok by (symmetry; assumption).
    eapply RT_last; [|apply RT_ret].
    apply mapM_doubles; [apply spaced_line|exact Hv|apply zlen_length; exact L1].
  - cbn [app].
    assert (F : to_size k = zlen (de_data e)).
    { rewrite Hl. pose proof (zlen_nonneg _ (de_data e)). apply to_size_id.
      unfold int_ok, INT_MAX, two64 in *. lia. }
    rewrite F. eapply RT_bind0; [intros; apply lift_ok; exact E1|].
    eapply RT_last.
    { apply mapM_doubles; [apply spaced_line|exact Hv|apply zlen_length; exact L1]. }
    unfold entry_via, via. cbn [de_npe de_default]. rewrite Hn. apply RT_ret.
Qed.

Definition data_text (pn : bool) (d : Data) : bytes :=
  header_text (d_header d) ++ List.concat (map (entry_text pn) (d_entries d)).

Lemma save_data_a : forall v pn d, save_data v false pn d = (data_text pn d, Ok tt).
Proof.
  intros. unfold save_data, data_text. apply wseq_ok; [apply save_header_ok|].
  apply wfor_ok. intros. apply save_entry_a.
Qed.

Lemma load_data_a : forall c v pn d, data_ok c true pn d ->
  RT (load_data c v false pn) (data_text pn d) (data_via true back d).
Proof.
  intros c v pn d [Hs Hr Hrm Hi (i0 & k & l & Ei & He) Hem]. unfold load_data, data_text.
  eapply RT_bind.
  { apply RTe_RT. apply load_header_RTe; auto. rewrite Ei. discriminate. }
  cbn [header_via int_tags]. rewrite Ei.
  pose proof (fits_size_ok' _ _ _ _ Hem eq_refl) as Hsz.
  assert (Hk : int_ok k).
  { destruct Hi as [Hi _]. rewrite Ei in Hi. inversion Hi as [|? ? _ Hi']; subst. inversion Hi'; assumption. }
  destruct (fits_resize DataEntry c sz_DataEntry de_default (zlen (d_entries d)) []) as (v1 & E1 & L1);
    [reflexivity|apply zlen_nonneg|exact Hem|].
  eapply RT_bind0; [intros; apply lift_ok; rewrite to_size_id by exact Hsz; exact E1|].
  eapply RT_last.
  - apply (mapM_RT' _ (entry_text pn) (entry_via true back)); [apply zlen_length; exact L1|].
    intros x e Hx Hin.
    assert (x = de_default) as ->.
    { unfold resize in E1. destruct (can_hold c sz_DataEntry (zlen (d_entries d)) []); try discriminate.
      injection E1 as <-. rewrite firstn_nil in Hx. apply repeat_spec in Hx. exact Hx. }
    rewrite Forall_forall in He. apply load_entry_a; auto.
  - rt1. apply RT_ret.
Qed.

(** ** Curves and patches *)

Lemma curve_entries_ok : forall c k a, curve_ok c a k ->
  curve_entries (cv_ncp k) (cv_nknots k) (cv_weights k) = zlen (cv_data k).
Proof.
  intros c k a [(_ & _ & _ & H4 & H5 & H6) Hl _ Hm]. unfold curve_entries. fold (cp_dim (cv_weights k)).
  pose proof (fits_size_ok' _ _ _ _ Hm eq_refl) as [_ Q].
  assert (0 < cp_dim (cv_weights k)) by (unfold cp_dim; destruct (0 <? cv_weights k); lia).
  unfold size_ok in *.
  rewrite to_size_id with (z := _ * _) by nia. rewrite to_size_id by nia. lia.
Qed.

Lemma patch_entries_ok : forall c k a, patch_ok c a k ->
  patch_entries (pt_ncp k) (pt_nu k) (pt_nv k) (pt_weights k) = zlen (pt_data k).
Proof.
  intros c k a [(_ & _ & _ & _ & H4 & H5 & H6 & H7) Hl _ Hm]. unfold patch_entries. fold (cp_dim (pt_weights k)).
  pose proof (fits_size_ok' _ _ _ _ Hm eq_refl) as [_ Q].
  assert (0 < cp_dim (pt_weights k)) by (unfold cp_dim; destruct (0 <? pt_weights k); lia).
  unfold size_ok in *.
  rewrite (to_size_id (pt_ncp k * _)) by nia. rewrite (to_size_id (_ + pt_nu k)) by nia.
  rewrite to_size_id by nia. lia.
Qed.

Definition curve_head (k : Curve) : bytes :=
  show_Z (cv_tag k) ++ sp ++ show_Z (cv_type k) ++ sp ++ show_Z (cv_degree k) ++ sp ++
  show_Z (cv_ncp k) ++ sp ++ show_Z (cv_nknots k) ++ sp ++ show_Z (cv_weights k) ++ endl.

(** Control points, then knots. *)
Definition cps {A} (ncp dim : Z) (l : list A) : list A := firstn (Z.to_nat (ncp * dim)) l.
Definition knots {A} (ncp dim : Z) (l : list A) : list A := skipn (Z.to_nat (ncp * dim)) l.

Definition each {A} (show : A -> bytes) (l : list A) : bytes :=
  List.concat (map (fun x => show x ++ endl) l).

Definition curve_text (k : Curve) : bytes :=
  let d := cp_dim (cv_weights k) in
  curve_head k ++
  List.concat (map (line print) (rows (cv_ncp k) d (cps (cv_ncp k) d (cv_data k)))) ++
  each print (knots (cv_ncp k) d (cv_data k)).

Lemma at_firstn : forall A (l : list A) n i, 0 <= i < n -> at_ l i = at_ (firstn (Z.to_nat n) l) i.
Proof.
  intros A l n i H. unfold at_. destruct (i <? 0); [reflexivity|].
  rewrite nth_error_firstn by lia. reflexivity.
Qed.

Lemma at_skipn : forall A (l : list A) n i, 0 <= n -> 0 <= i -> at_ l (n + i) = at_ (skipn (Z.to_nat n) l) i.
Proof.
  intros A l n i Hn Hi. unfold at_.
  replace (n + i <? 0) with false by (symmetry; apply Z.ltb_ge; lia).
  replace (i <? 0) with false by (symmetry; apply Z.ltb_ge; lia).
  rewrite nth_error_skipn, Z2Nat.inj_add by lia. reflexivity.
Qed.

(** A counted loop over a slice. *)
Lemma wfor_slice : forall A (show : A -> bytes) (l : list A) a n, 0 <= a -> 0 <= n ->
  a + n <= zlen l -> zlen l < two64 ->
  wfor (iota n) (fun i => wlet (at_ l (to_size (a + i))) (fun x => out (show x ++ endl))) =
  (each show (firstn (Z.to_nat n) (skipn (Z.to_nat a) l)), Ok tt).
Proof.
  intros A show l a n Ha Hn HL HB. set (l' := firstn (Z.to_nat n) (skipn (Z.to_nat a) l)).
  assert (HL' : n = zlen l') by (unfold l', zlen in *; rewrite firstn_length, skipn_length; lia).
  transitivity (wfor (iota n) (fun i => wlet (at_ l' i) (fun x => out (show x ++ endl)))).
  - apply wfor_ext. intros i Hi. apply in_iota in Hi. rewrite to_size_id by lia.
    rewrite at_skipn by lia. rewrite (at_firstn _ (skipn _ _) n) by lia. reflexivity.
  - rewrite iota_at_all by exact HL'. apply wfor_ok. reflexivity.
Qed.

Lemma wfor_cps : forall A (show : A -> bytes) (l : list A) n w (last : Z -> bool),
  0 <= n -> 0 <= w -> n * w <= zlen l -> zlen l < two64 -> (forall k, last k = (k + 1 =? w)) ->
  wfor (iota n) (fun j => wfor (iota w) (fun k =>
    wlet (at_ l (to_size (j * w + k))) (fun x => out (show x ++ (if last k then endl else sp))))) =
  (List.concat (map (line show) (rows n w (cps n w l))), Ok tt).
Proof.
  intros A show l n w last Hn Hw HL HB Hlast.
  rewrite <- (wfor_rows_lines A show (cps n w l) n w last); auto; try lia.
  - apply wfor_ext. intros j Hj. apply in_iota in Hj. apply wfor_ext. intros k Hk. apply in_iota in Hk.
    rewrite to_size_id by nia. unfold cps. rewrite <- at_firstn by nia. reflexivity.
  - unfold cps, zlen in *. rewrite firstn_length. nia.
Qed.

Lemma save_curve_a : forall c a k, curve_ok c a k -> save_curve c true k = (curve_text k, Ok tt).
Proof.
  intros c a k H. pose proof (curve_entries_ok c k a H) as HE.
  destruct H as [(_ & _ & _ & H4 & H5 & H6) Hl _ Hm].
  pose proof (fits_size_ok' _ _ _ _ Hm eq_refl) as [_ Q].
  assert (Hd : 3 <= cp_dim (cv_weights k)) by (unfold cp_dim; destruct (0 <? cv_weights k); lia).
  unfold save_curve, curve_text. cbv zeta. fold (cp_dim (cv_weights k)). rewrite HE, Z.eqb_refl.
  unfold size_ok in *.
  erewrite wseq_ok; [|apply out_ok|].
  2:{ replace (wassert c true) with wret by (unfold wassert; destruct (ndebug c); reflexivity).
      apply wseq_ok; [apply wret_ok|]. apply wseq_ok.
      - apply wfor_cps; try nia; try (intro; reflexivity).
      - rewrite (wfor_slice _ print) by nia. reflexivity. }
  cbn [app]. unfold curve_head, knots. rewrite <- !app_assoc.
  rewrite firstn_all2 with (n := Z.to_nat (cv_nknots k)); [reflexivity|].
  rewrite skipn_length. unfold zlen in *. nia.
Qed.

Lemma load_curve_a : forall c k k0, curve_ok c true k ->
  RT (load_curve c true k0) (curve_text k) (curve_via true back k).
Proof.
  intros c k k0 H. pose proof (curve_entries_ok c k true H) as HE.
  destruct H as [(H1 & H2 & H3 & H4 & H5 & H6) Hl Hv Hm].
  assert (Hd : 3 <= cp_dim (cv_weights k)) by (unfold cp_dim; destruct (0 <? cv_weights k); lia).
  unfold load_curve, curve_text, curve_head. cbv zeta. rewrite <- !app_assoc.
  do 6 rt1. eapply RT_bind0; [intros; reflexivity|].
  destruct (fits_resize Z c sz_double 0 (zlen (cv_data k)) (cv_data k0)) as (v1 & E1 & L1);
    [reflexivity|apply zlen_nonneg|exact Hm|].
  eapply RT_bind0; [intros; apply lift_ok; rewrite HE; exact E1|].
  eapply RT_last; [|apply RT_ret].
  unfold size_ok in *. apply mapM_doubles; [|exact Hv|apply zlen_length; exact L1].
  rewrite <- (firstn_skipn (Z.to_nat (cv_ncp k * cp_dim (cv_weights k))) (cv_data k)) at 1.
  apply spaced_app; [|apply spaced_each].
  rewrite <- (concat_rows _ (firstn _ _) (cv_ncp k) (cp_dim (cv_weights k))) at 1;
    [apply spaced_lines|lia|lia|].
  unfold zlen in *. rewrite firstn_length. nia.
Qed.

Definition patch_head (k : Patch) : bytes :=
  show_Z (pt_tag k) ++ sp ++ show_Z (pt_type k) ++ sp ++ show_Z (pt_degu k) ++ sp ++
  show_Z (pt_degv k) ++ sp ++ show_Z (pt_ncp k) ++ sp ++ show_Z (pt_nu k) ++ sp ++
  show_Z (pt_nv k) ++ sp ++ show_Z (pt_weights k) ++ endl.

Definition patch_text (k : Patch) : bytes :=
  let d := cp_dim (pt_weights k) in
  patch_head k ++
  List.concat (map (line print) (rows (pt_ncp k) d (cps (pt_ncp k) d (pt_data k)))) ++
  each print (knots (pt_ncp k) d (pt_data k)).

Lemma each_app : forall A (show : A -> bytes) a b, each show (a ++ b) = each show a ++ each show b.
Proof. intros. unfold each. rewrite map_app, concat_app. reflexivity. Qed.

Lemma save_patch_a : forall c a k, patch_ok c a k -> save_patch c true k = (patch_text k, Ok tt).
Proof.
  intros c a k H. pose proof (patch_entries_ok c k a H) as HE.
  destruct H as [(_ & _ & _ & _ & H4 & H5 & H6 & H7) Hl _ Hm].
  pose proof (fits_size_ok' _ _ _ _ Hm eq_refl) as [_ Q].
  assert (Hd : 3 <= cp_dim (pt_weights k)) by (unfold cp_dim; destruct (0 <? pt_weights k); lia).
  unfold save_patch, patch_text. cbv zeta. fold (cp_dim (pt_weights k)). rewrite HE, Z.eqb_refl.
  unfold size_ok in *.
  erewrite wseq_ok; [|apply out_ok|].
  2:{ replace (wassert c true) with wret by (unfold wassert; destruct (ndebug c); reflexivity).
      apply wseq_ok; [apply wret_ok|]. apply wseq_ok; [|apply wseq_ok].
      - apply wfor_cps; try nia; try (intro; reflexivity).
      - rewrite (wfor_slice _ print) by nia. reflexivity.
      - rewrite (wfor_slice _ print) by nia. reflexivity. }
  cbn [app]. unfold patch_head, knots. rewrite <- !app_assoc.
  set (l := pt_data k) in *. set (m := pt_ncp k * cp_dim (pt_weights k)) in *.
  assert (0 <= m) by (unfold m; nia).
  rewrite <- each_app. rewrite firstn_all2 with (n := Z.to_nat (pt_nv k)).
  2:{ rewrite skipn_length. unfold zlen in *. lia. }
  rewrite Z2Nat.inj_add by lia. rewrite <- skipn_plus. rewrite firstn_skipn. reflexivity.
Qed.

Lemma load_patch_a : forall c k k0, patch_ok c true k ->
  RT (load_patch c true k0) (patch_text k) (patch_via true back k).
Proof.
  intros c k k0 H. pose proof (patch_entries_ok c k true H) as HE.
  destruct H as [(H1 & H2 & H3 & H4 & H5 & H6 & H7 & H8) Hl Hv Hm].
  assert (Hd : 3 <= cp_dim (pt_weights k)) by (unfold cp_dim; destruct (0 <? pt_weights k); lia).
  unfold load_patch, patch_text, patch_head. cbv zeta. rewrite <- !app_assoc.
  do 8 rt1.
  destruct (fits_resize Z c sz_double 0 (zlen (pt_data k)) (pt_data k0)) as (v1 & E1 & L1);
    [reflexivity|apply zlen_nonneg|exact Hm|].
  eapply RT_bind0; [intros; apply lift_ok; rewrite HE; exact E1|].
  eapply RT_last; [|apply RT_ret].
  unfold size_ok in *. apply mapM_doubles; [|exact Hv|apply zlen_length; exact L1].
  rewrite <- (firstn_skipn (Z.to_nat (pt_ncp k * cp_dim (pt_weights k))) (pt_data k)) at 1.
  apply spaced_app; [|apply spaced_each].
  rewrite <- (concat_rows _ (firstn _ _) (pt_ncp k) (cp_dim (pt_weights k))) at 1;
    [apply spaced_lines|lia|lia|].
  unfold zlen in *. rewrite firstn_length. nia.
Qed.

End Printed.
