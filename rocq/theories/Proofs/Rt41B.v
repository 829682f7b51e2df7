(** 4.1 binary: each section's bytes and their reading. *)

From Verif Require Import Model.Save Spec.Consistent Proofs.BytesP Proofs.RtBase Proofs.ShowP
  Proofs.WriteP Proofs.RtStep Proofs.Rt41A.

Ltac Zify.zify_post_hook ::= idtac.

Lemma map_via_raw : forall r l, map (via false r) l = l.
Proof. intros. exact (map_id l). Qed.

Definition raw8 (l : list Z) : bytes := List.concat (map (le 8) l).
Definition raw4 (l : list Z) : bytes := List.concat (map (le 4) l).

Lemma dbl_ok_b : forall a x, dbl_ok a x -> size_ok x.
Proof. intros a x [H _]. exact H. Qed.

Lemma dbls_ok_b : forall a l, Forall (dbl_ok a) l -> Forall size_ok l.
Proof. intros a l H. eapply Forall_impl; [|exact H]. intros x Q. eapply dbl_ok_b; exact Q. Qed.

Ltac rb1 :=
  first
  [ eapply RB_int
  | eapply RB_size
  | eapply RB_size_opt
  | eapply RB_double
  | eapply RB_bind0; [ intros; first [apply assert_good_ok; assumption | reflexivity] | ] ];
  try assumption.

Section RawSteps.
Context {B : Type}.

Lemma RB_doubles : forall olds vs (h : list Z -> M B) t b, List.length olds = List.length vs ->
  Forall size_ok vs -> RB (h vs) t b ->
  RB (bind (rd_raw_array rd_raw_double olds) h) (raw8 vs ++ t) b.
Proof. intros. eapply RB_sizes; eassumption. Qed.

Lemma RB_doubles_last : forall olds vs (h : list Z -> M B) b, List.length olds = List.length vs ->
  Forall size_ok vs -> RB (h vs) [] b ->
  RB (bind (rd_raw_array rd_raw_double olds) h) (raw8 vs) b.
Proof. intros. rewrite <- (app_nil_r (raw8 vs)). eapply RB_sizes; eassumption. Qed.

(** A text number whose line end is eaten before raw data. *)
Lemma RT_size_eat : forall old z (f : Z -> M B) t b, size_ok z -> EX (f z) (endl ++ t) b [] ->
  RT (bind (op (rd_size old)) f) (show_Z z ++ endl ++ t) b.
Proof.
  intros old z f t b Hz H u Hu. exists []. split; [apply ws_nil|].
  rewrite (app_assoc (show_Z z)), app_assoc. eapply EX_bind; [|exact H].
  apply rd_num_EX; auto with rt; [apply reads_size; exact Hz|discriminate].
Qed.

Lemma EX_last : forall A (m : M A) (h : A -> M B) t a b, EX m t a [] -> RB (h a) [] b ->
  EX (bind m h) t b [].
Proof. intros. rewrite <- (app_nil_r t). eapply EX_bind; eauto. Qed.
End RawSteps.

(** ** Nodes *)

Definition node_block_bytes (b : NodeBlock) : bytes :=
  le 4 (nb_dim b) ++ le 4 (nb_tag b) ++ le 4 (nb_parametric b) ++ le 8 (nb_num b) ++
  raw8 (nb_tags b) ++ raw8 (nb_data b).

Lemma save_node_block_b : forall c b, node_block_ok c false b ->
  v41_save_node_block_binary b = (node_block_bytes b, Ok tt).
Proof.
  intros c b H. destruct H as [Hd Ht Hp Hp3 Hn Hts Hw Hdat Hv Hm1 Hm2].
  pose proof (fits_bytes _ _ _ Hm1). pose proof (fits_bytes _ _ _ Hm2).
  unfold v41_save_node_block_binary, node_block_bytes.
  erewrite wseq_ok; [|apply out_ok|].
  2:{ apply wseq_ok.
      - rewrite write_array_ok by lia. reflexivity.
      - eapply wlet_ok; [apply epn_ok; exact Hw|]. cbv beta.
        rewrite <- Z.mul_assoc, <- Hdat.
        rewrite (write_array_ok (nb_data b)); [reflexivity|reflexivity|assumption]. }
  rewrite <- !app_assoc. reflexivity.
Qed.

Lemma load_node_block_b : forall c r b b0, node_block_ok c false b ->
  RB (v41_node_block_binary c b0) (node_block_bytes b) (node_block_via false r b).
Proof.
  intros c r b b0 H. destruct H as [Hd Ht Hp Hp3 Hn Hts Hw Hdat Hv Hm1 Hm2].
  unfold v41_node_block_binary, node_block_bytes.
  pose proof (fits_size_ok' _ _ _ _ Hm1 eq_refl) as Hs1.
  pose proof (fits_size_ok' _ _ _ _ Hm2 eq_refl) as Hs2.
  do 4 rb1; [rewrite Hn; exact Hs1|]. rb1.
  destruct (fits_resize Z c sz_size 0 (nb_num b) (nb_tags b0)) as (v1 & E1 & L1);
    [reflexivity|rewrite Hn; apply zlen_nonneg|rewrite Hn; exact Hm1|].
  eapply RB_bind0; [intros; apply lift_ok; exact E1|].
  destruct Hm1 as [Hm1 _]. pose proof (proj1 Hm2) as Hm3. change sz_size with 8 in *. change sz_double with 8 in Hm3 |- *.
  change (PTRDIFF_MAX / 8) with 1152921504606846975 in Hm1, Hm3.
  apply RB_into; [reflexivity|rewrite L1, Hn; pose proof (zlen_nonneg _ (nb_tags b)); apply to_size_id; unfold two64; lia|].
  eapply RB_sizes; [apply zlen_length; congruence|exact Hts|].
  rb1. eapply RB_bind0; [intros; apply lift_ok; apply epn_ok; exact Hw|].
  destruct (fits_resize Z c sz_double 0 (zlen (nb_data b)) (nb_data b0)) as (v2 & E2 & L2);
    [reflexivity|apply zlen_nonneg|exact Hm2|].
  eapply RB_bind0.
  { intros. apply lift_ok. rewrite <- Hdat. rewrite to_size_id by exact Hs2. exact E2. }
  apply RB_into; [reflexivity| |].
  { unfold to_size. rewrite Zmult_mod_idemp_l, <- Z.mul_assoc, <- Hdat.
    etransitivity; [|apply f_equal; symmetry; exact L2].
    apply Z.mod_small. pose proof (zlen_nonneg _ (nb_data b)). unfold two64. lia. }
  eapply RB_doubles_last; [apply zlen_length; exact L2|eapply dbls_ok_b; exact Hv|].
  rb1. unfold node_block_via. rewrite map_via_raw. apply RB_ret.
Qed.

Definition nodes_bytes (n : Nodes) : bytes :=
  le 8 (n_num_blocks n) ++ le 8 (n_num_nodes n) ++ le 8 (n_min n) ++ le 8 (n_max n) ++
  List.concat (map node_block_bytes (n_blocks n)).

Lemma save_nodes_b : forall c n, nodes_ok c false n -> v41_save_nodes_binary n = (nodes_bytes n, Ok tt).
Proof.
  intros c n H. destruct H as [Hn Hmin Hmax Hm Hb]. unfold v41_save_nodes_binary, nodes_bytes.
  erewrite wseq_ok; [|apply out_ok|].
  2:{ rewrite iota_at_all by exact Hn. apply wfor_ok. intros b Hin.
      rewrite Forall_forall in Hb. eapply save_node_block_b; eauto. }
  rewrite <- !app_assoc. reflexivity.
Qed.

Lemma load_nodes_b : forall c r n n0, nodes_ok c false n -> size_ok (n_num_nodes n) ->
  EX (v41_load_nodes_binary c n0) (endl ++ nodes_bytes n)
     {| n_num_blocks := n_num_blocks n; n_num_nodes := n_num_nodes n; n_min := n_min n;
        n_max := n_max n; n_blocks := map (node_block_via false r) (n_blocks n) |} [].
Proof.
  intros c r n n0 H Hnn. destruct H as [Hn Hmin Hmax Hm Hb]. unfold v41_load_nodes_binary, nodes_bytes.
  pose proof (fits_size_ok' _ _ _ _ Hm eq_refl) as Hs.
  apply eat1_then. rb1; [rewrite Hn; exact Hs|]. do 4 rb1.
  destruct (fits_resize NodeBlock c sz_NodeBlock nb_default (n_num_blocks n) (n_blocks n0)) as (v1 & E1 & L1);
    [reflexivity|rewrite Hn; apply zlen_nonneg|rewrite Hn; exact Hm|].
  eapply RB_bind0; [intros; apply lift_ok; exact E1|].
  eapply RB_last; [|apply RB_ret].
  apply mapM_RB'; [apply zlen_length; congruence|].
  intros x b _ Hin. apply load_node_block_b. rewrite Forall_forall in Hb. auto.
Qed.

(** ** Elements *)

Definition element_block_bytes (b : ElementBlock) : bytes :=
  le 4 (eb_dim b) ++ le 4 (eb_tag b) ++ le 4 (eb_type b) ++ le 8 (eb_num b) ++ raw8 (eb_data b).

Lemma save_element_block_b : forall b,
  v41_save_element_block_binary b = (element_block_bytes b, Ok tt).
Proof.
  intro b. unfold v41_save_element_block_binary, element_block_bytes.
  erewrite wseq_ok; [|apply out_ok|apply out_ok].
  rewrite <- !app_assoc. reflexivity.
Qed.

Lemma load_element_block_b : forall c b b0, element_block_ok c b ->
  RB (v41_element_block_binary c b0) (element_block_bytes b) b.
Proof.
  intros c b b0 H. destruct H as [Hd Ht Hn Hdat Hv Hm]. destruct Hdat as (n & Hg & Hl).
  apply gmsh_nodes_spec in Hg. destruct Hg as (Hg & Hn1 & Hty).
  unfold v41_element_block_binary, element_block_bytes.
  pose proof (fits_size_ok' _ _ _ _ Hm eq_refl) as Hs.
  do 3 rb1; [unfold int_ok, INT_MIN, INT_MAX; lia|]. rb1.
  eapply RB_bind0; [intros; apply lift_ok; exact Hg|].
  destruct (fits_resize Z c sz_size 0 (zlen (eb_data b)) (eb_data b0)) as (v1 & E1 & L1);
    [reflexivity|apply zlen_nonneg|exact Hm|].
  eapply RB_bind0.
  { intros. apply lift_ok. rewrite <- Hl. rewrite to_size_id by exact Hs. exact E1. }
  eapply (RB_doubles_last v1 (eb_data b)); [apply zlen_length; exact L1|exact Hv|].
  rb1. rewrite <- (element_block_eta b) at 6. apply RB_ret.
Qed.

Definition elements_bytes (e : Elements) : bytes :=
  le 8 (e_num_blocks e) ++ le 8 (e_num_elements e) ++ le 8 (e_min e) ++ le 8 (e_max e) ++
  List.concat (map element_block_bytes (e_blocks e)).

Lemma save_elements_b : forall c e, elements_ok c e ->
  v41_save_elements_binary e = (elements_bytes e, Ok tt).
Proof.
  intros c n H. destruct H as [Hn Hmin Hmax Hm Hb]. unfold v41_save_elements_binary, elements_bytes.
  erewrite wseq_ok; [|apply out_ok|].
  2:{ rewrite iota_at_all by exact Hn. apply wfor_ok. intros. apply save_element_block_b. }
  rewrite <- !app_assoc. reflexivity.
Qed.

Lemma load_elements_b : forall c e e0, elements_ok c e -> size_ok (e_num_elements e) ->
  EX (v41_load_elements_binary c e0) (endl ++ elements_bytes e) e [].
Proof.
  intros c e e0 H Hnn. destruct H as [Hn Hmin Hmax Hm Hb]. unfold v41_load_elements_binary, elements_bytes.
  pose proof (fits_size_ok' _ _ _ _ Hm eq_refl) as Hs.
  apply eat1_then. rb1; [rewrite Hn; exact Hs|]. do 4 rb1.
  destruct (fits_resize ElementBlock c sz_ElementBlock eb_default (e_num_blocks e) (e_blocks e0)) as (v1 & E1 & L1);
    [reflexivity|rewrite Hn; apply zlen_nonneg|rewrite Hn; exact Hm|].
  eapply RB_bind0; [intros; apply lift_ok; exact E1|].
  eapply RB_last.
  - apply (mapM_RB' _ element_block_bytes (fun b => b)); [apply zlen_length; congruence|].
    intros x b _ Hin. apply load_element_block_b. rewrite Forall_forall in Hb. auto.
  - rewrite map_id, elements_eta. apply RB_ret.
Qed.

(** ** Entities *)

Definition ints_bytes (l : list Z) : bytes := le 8 (zlen l) ++ raw4 l.

Lemma load_ints_b : forall c old l, ints_ok c l -> RB (ints_binary c old) (ints_bytes l) l.
Proof.
  intros c old l [Hi Hm]. unfold ints_binary, ints_bytes.
  rb1; [eapply fits_size_ok; [|exact Hm]; reflexivity|]. rb1.
  eapply RB_bind0; [intros; reflexivity|].
  destruct (fits_resize Z c sz_int 0 (zlen l) old) as (v1 & E1 & L1);
    [reflexivity|apply zlen_nonneg|exact Hm|].
  eapply RB_bind0; [intros; apply lift_ok; exact E1|].
  rewrite <- (app_nil_r (raw4 l)). eapply RB_ints; [apply zlen_length; exact L1|exact Hi|].
  rb1. apply RB_ret.
Qed.

Definition point_bytes (p : PointEntity) : bytes :=
  le 4 (pe_tag p) ++ le 8 (pe_x p) ++ le 8 (pe_y p) ++ le 8 (pe_z p) ++ ints_bytes (pe_phys p).

Lemma save_point_b : forall p, save_point_binary p = (point_bytes p, Ok tt).
Proof.
  intro p. unfold save_point_binary, point_bytes.
  erewrite wseq_ok; [|apply out_ok|apply out_ok].
  rewrite <- !app_assoc. reflexivity.
Qed.

Ltac dblsb :=
  repeat match goal with H : dbl_ok false _ |- _ => apply dbl_ok_b in H end.

Section Printed.
Context {print : printer} {back : rounder} {RBK : reads_back print back}.

Lemma load_point_b : forall c r p p0, point_ok c false p ->
  RB (point_binary c p0) (point_bytes p) (point_via false r p).
Proof.
  intros c r p p0 H. destruct H as [Ht (Hx & Hy & Hz) Hp]. dblsb.
  unfold point_binary, point_bytes. do 4 rb1.
  eapply RB_last; [apply load_ints_b; exact Hp|]. apply RB_ret.
Qed.

Definition entity_bytes (e : Entity) : bytes :=
  le 4 (en_tag e) ++ le 8 (en_min_x e) ++ le 8 (en_min_y e) ++ le 8 (en_min_z e) ++
  le 8 (en_max_x e) ++ le 8 (en_max_y e) ++ le 8 (en_max_z e) ++
  ints_bytes (en_phys e) ++ ints_bytes (en_bnd e).

Lemma save_entity_b : forall e, save_entity_binary e = (entity_bytes e, Ok tt).
Proof.
  intro p. unfold save_entity_binary, entity_bytes.
  erewrite wseq_ok; [|apply out_ok|apply wseq_ok; apply out_ok].
  rewrite <- !app_assoc. reflexivity.
Qed.

Lemma load_entity_b : forall c r e e0, entity_ok c false e ->
  RB (entity_binary c e0) (entity_bytes e) (entity_via false r e).
Proof.
  intros c r e e0 H. destruct H as [Ht (Hx & Hy & Hz) (Hx1 & Hy1 & Hz1) Hp Hb]. dblsb.
  unfold entity_binary, entity_bytes. do 7 rb1.
  eapply RB_bind; [apply load_ints_b; exact Hp|].
  eapply RB_last; [apply load_ints_b; exact Hb|]. apply RB_ret.
Qed.

Definition entities_bytes (en : Entities) : bytes :=
  le 8 (zlen (points en)) ++ le 8 (zlen (curves_e en)) ++
  le 8 (zlen (surfaces_e en)) ++ le 8 (zlen (volumes_e en)) ++
  List.concat (map point_bytes (points en)) ++
  List.concat (map entity_bytes (curves_e en)) ++
  List.concat (map entity_bytes (surfaces_e en)) ++
  List.concat (map entity_bytes (volumes_e en)).

Lemma save_entities_b : forall en, v41_save_entities_binary en = (entities_bytes en, Ok tt).
Proof.
  intro en. unfold v41_save_entities_binary, entities_bytes.
  erewrite wseq_ok; [|apply out_ok|].
  2:{ repeat apply wseq_ok; apply wfor_ok; intros; [apply save_point_b|apply save_entity_b..]. }
  rewrite <- !app_assoc. reflexivity.
Qed.

Lemma load_entities_b : forall c r en en0, entities_ok c false en ->
  EX (v41_load_entities_binary c en0) (endl ++ entities_bytes en) (entities_via false r en) [].
Proof.
  intros c r en en0 H. pose proof (resize_entities_ok c false en en0 H) as (en1 & ER & L1 & L2 & L3 & L4).
  destruct H as [[F1 H1] [F2 H2] [F3 H3] [F4 H4]]. rewrite Forall_forall in F1, F2, F3, F4.
  unfold v41_load_entities_binary, entities_bytes. apply eat1_then.
  rb1; [eapply fits_size_ok; [|exact H1]; reflexivity|].
  rb1; [eapply fits_size_ok; [|exact H2]; reflexivity|].
  rb1; [eapply fits_size_ok; [|exact H3]; reflexivity|].
  rb1; [eapply fits_size_ok; [|exact H4]; reflexivity|].
  rb1. eapply RB_bind0; [intros; apply ER|].
  eapply RB_bind; [apply (mapM_RB' _ point_bytes (point_via false r)); [exact L1|intros; apply load_point_b; auto]|].
  eapply RB_bind; [apply (mapM_RB' _ entity_bytes (entity_via false r)); [exact L2|intros; apply load_entity_b; auto]|].
  eapply RB_bind; [apply (mapM_RB' _ entity_bytes (entity_via false r)); [exact L3|intros; apply load_entity_b; auto]|].
  eapply RB_last; [apply (mapM_RB' _ entity_bytes (entity_via false r)); [exact L4|intros; apply load_entity_b; auto]|].
  apply RB_ret.
Qed.

(** ** Data sections *)

Definition entry_bytes (per_node : bool) (e : DataEntry) : bytes :=
  le 4 (de_tag e) ++ (if per_node then le 4 (de_npe e) else []) ++ raw8 (de_data e).

Lemma le_mod : forall n a b, a mod 256 ^ Z.of_nat n = b mod 256 ^ Z.of_nat n -> le n a = le n b.
Proof.
  intros n a b H. rewrite <- (le_unle (le n a)), <- (le_unle (le n b)), !unle_le, !le_length, H. reflexivity.
Qed.

Lemma int_mod : forall z, to_int z mod two32 = z mod two32.
Proof.
  intro z. unfold to_int. cbv zeta. destruct (_ <? _).
  - apply Z.mod_mod. discriminate.
  - replace (z mod two32 - two32) with (z mod two32 + (-1) * two32) by lia.
    rewrite Z.mod_add by discriminate. apply Z.mod_mod. discriminate.
Qed.

Lemma le4_int : forall z, le 4 (to_int z) = le 4 z.
Proof. intro z. apply le_mod. exact (int_mod z). Qed.

Lemma to_int_ok : forall z, int_ok (to_int z).
Proof.
  intro z. unfold to_int, int_ok, INT_MIN, INT_MAX. cbv zeta.
  pose proof (Z.mod_pos_bound z two32 ltac:(reflexivity)). unfold two32 in *.
  destruct (Z.ltb_spec (z mod 4294967296) 2147483648); lia.
Qed.

Lemma tag32_int : forall t, tag32 t = to_size (to_int t).
Proof.
  intro t. unfold tag32, to_int, to_size. cbv zeta. change (2 ^ 32) with two32. change (2 ^ 31) with 2147483648.
  pose proof (Z.mod_pos_bound t two32 ltac:(reflexivity)) as H. unfold two32, two64 in *.
  destruct (Z.ltb_spec (t mod 4294967296) 2147483648).
  - symmetry. apply Z.mod_small. lia.
  - change (2 ^ 64) with 18446744073709551616.
    set (m := t mod 4294967296) in *. clearbody m.
    rewrite <- (Z.mod_add (m - 4294967296) 1 18446744073709551616) by discriminate.
    rewrite Z.mod_small by lia. lia.
Qed.

Lemma tag32_small : forall t, 0 <= t <= INT_MAX -> tag32 t = t.
Proof.
  intros t H. unfold tag32, INT_MAX in *. cbv zeta. rewrite Z.mod_small by lia.
  replace (t <? 2 ^ 31) with true by (symmetry; apply Z.ltb_lt; lia). reflexivity.
Qed.

Lemma load_entry_b : forall c r is22 pn k e, int_ok k -> entry_ok c false pn k e ->
  RB (entry_binary c is22 (to_size k) pn de_default) (entry_bytes pn e) (entry_via false r e).
Proof.
  intros c r is22 pn k e Hk [Ht Hn Hl Hv Hm]. unfold entry_binary, entry_bytes.
  rewrite <- (le4_int (de_tag e)).
  eapply RB_int_opt; [apply to_int_ok|].
  eapply RB_bind0; [intros; reflexivity|]. cbv beta.
  rewrite <- (tag32_int (de_tag e)).
  pose proof (fits_size_ok' _ _ _ _ Hm eq_refl) as Hs.
  destruct (fits_resize Z c sz_double 0 (zlen (de_data e)) (de_data de_default)) as (v1 & E1 & L1);
    [reflexivity|apply zlen_nonneg|exact Hm|].
  unfold entry_via. rewrite map_via_raw.
  destruct pn.
  - assert (In : int_ok (de_npe e)) by (unfold int_ok, INT_MIN; lia).
    eapply (RB_bind _ _ _ _ _ _ (de_npe e)).
    { destruct is22; [|apply rd_raw_int_RB; exact In].
      eapply RB_map; [apply rd_raw_int_opt_RB; exact In|]. reflexivity. }
    pose proof (fields_ok c k (de_npe e) (de_data e) Hk Hn Hl Hm) as F. rewrite F.
    eapply RB_bind0; [intros; apply lift_ok; rewrite to_size_id by exact Hs; exact E1|].
    eapply RB_doubles_last; [apply zlen_length; exact L1|eapply dbls_ok_b; exact Hv|]. apply RB_ret.
  - cbn [app]. eapply RB_bind0; [intros; reflexivity|].
    assert (F : to_size k = zlen (de_data e)).
    { rewrite Hl. pose proof (zlen_nonneg _ (de_data e)). apply to_size_id.
      unfold int_ok, INT_MAX, two64 in *. lia. }
    rewrite F. eapply RB_bind0; [intros; apply lift_ok; exact E1|].
    eapply RB_doubles_last; [apply zlen_length; exact L1|eapply dbls_ok_b; exact Hv|].
    cbn [de_npe de_default]. rewrite Hn. apply RB_ret.
Qed.

Definition data_bytes (pn : bool) (d : Data) : bytes :=
  header_text (d_header d) ++ List.concat (map (entry_bytes pn) (d_entries d)).

Lemma save_data_b : forall v pn d, v = v41s \/ v = v22s ->
  save_data v true pn d = (data_bytes pn d, Ok tt).
Proof.
  intros v pn d Hv. unfold save_data, data_bytes. apply wseq_ok; [apply save_header_ok|].
  assert (E : wfor (d_entries d) (save_entry_binary pn) =
              (List.concat (map (entry_bytes pn) (d_entries d)), Ok tt))
    by (apply wfor_ok; intros; reflexivity).
  destruct Hv; subst v; exact E.
Qed.

Lemma load_data_b : forall c v pn d, v = v41s \/ v = v22s -> data_ok c false pn d ->
  forall u, ws u ->
  EX (load_data c v true pn) (u ++ data_bytes pn d) (data_via false back d) [].
Proof.
  intros c v pn d HV [Hs Hr Hrm Hi (i0 & k & l & Ei & He) Hem]. unfold load_data, data_bytes.
  eapply RTe_eat1_RB.
  { apply load_header_RTe; auto. rewrite Ei. discriminate. }
  cbn [header_via int_tags]. rewrite Ei.
  pose proof (fits_size_ok' _ _ _ _ Hem eq_refl) as Hsz.
  assert (Hk : int_ok k).
  { destruct Hi as [Hi _]. rewrite Ei in Hi. inversion Hi as [|? ? _ Hi']; subst. inversion Hi'; assumption. }
  destruct (fits_resize DataEntry c sz_DataEntry de_default (zlen (d_entries d)) []) as (v1 & E1 & L1);
    [reflexivity|apply zlen_nonneg|exact Hem|].
  eapply EX_bind0; [intros; apply lift_ok; rewrite to_size_id by exact Hsz; exact E1|].
  assert (HE : forall is22, RB (mapM (entry_binary c is22 (to_size k) pn) v1)
                 (List.concat (map (entry_bytes pn) (d_entries d))) (map (entry_via false back) (d_entries d))).
  { intro is22. apply mapM_RB'; [apply zlen_length; exact L1|]. intros x e Hx Hin.
    assert (x = de_default) as ->.
    { unfold resize in E1. destruct (can_hold c sz_DataEntry (zlen (d_entries d)) []); try discriminate.
      injection E1 as <-. rewrite firstn_nil in Hx. apply repeat_spec in Hx. exact Hx. }
    rewrite Forall_forall in He. apply load_entry_b; auto. }
  eapply EX_last.
  - apply eat1_then. destruct HV; subst v; cbn [bytes_eqb]; apply HE.
  - eapply RB_bind0; [intros; apply assert_good_ok; assumption|]. apply RB_ret.
Qed.

(** ** Curves and patches *)

Definition curve_bytes (k : Curve) : bytes := curve_head k ++ raw8 (cv_data k).
Definition patch_bytes (k : Patch) : bytes := patch_head k ++ raw8 (pt_data k).

Lemma save_curve_b : forall c k, curve_ok c false k -> save_curve c false k = (curve_bytes k, Ok tt).
Proof.
  intros c k H. pose proof (curve_entries_ok c k false H) as HE.
  destruct H as [_ Hl _ Hm]. pose proof (fits_bytes _ _ _ Hm).
  unfold save_curve, curve_bytes. cbv zeta. rewrite HE, Z.eqb_refl.
  erewrite wseq_ok; [|apply out_ok|].
  2:{ replace (wassert c true) with wret by (unfold wassert; destruct (ndebug c); reflexivity).
      apply wseq_ok; [apply wret_ok|]. eapply write_array_ok; [reflexivity|assumption]. }
  cbn [app]. unfold curve_head. rewrite <- !app_assoc. reflexivity.
Qed.

Lemma load_curve_b : forall c r k k0, curve_ok c false k ->
  RT (load_curve c false k0) (curve_bytes k) (curve_via false r k).
Proof.
  intros c r k k0 H. pose proof (curve_entries_ok c k false H) as HE.
  destruct H as [(H1 & H2 & H3 & H4 & H5 & H6) Hl Hv Hm].
  unfold load_curve, curve_bytes, curve_head. cbv zeta. rewrite <- !app_assoc.
  do 5 rt1. eapply RT_size_eat; [exact H6|]. apply eat1_then.
  destruct (fits_resize Z c sz_double 0 (zlen (cv_data k)) (cv_data k0)) as (v1 & E1 & L1);
    [reflexivity|apply zlen_nonneg|exact Hm|].
  eapply RB_bind0; [intros; apply lift_ok; rewrite HE; exact E1|].
  eapply RB_doubles_last; [apply zlen_length; exact L1|eapply dbls_ok_b; exact Hv|].
  unfold curve_via. rewrite map_via_raw. apply RB_ret.
Qed.

Lemma save_patch_b : forall c k, patch_ok c false k -> save_patch c false k = (patch_bytes k, Ok tt).
Proof.
  intros c k H. pose proof (patch_entries_ok c k false H) as HE.
  destruct H as [_ Hl _ Hm]. pose proof (fits_bytes _ _ _ Hm).
  unfold save_patch, patch_bytes. cbv zeta. rewrite HE, Z.eqb_refl.
  erewrite wseq_ok; [|apply out_ok|].
  2:{ replace (wassert c true) with wret by (unfold wassert; destruct (ndebug c); reflexivity).
      apply wseq_ok; [apply wret_ok|]. eapply write_array_ok; [reflexivity|assumption]. }
  cbn [app]. unfold patch_head. rewrite <- !app_assoc. reflexivity.
Qed.

Lemma load_patch_b : forall c r k k0, patch_ok c false k ->
  RT (load_patch c false k0) (patch_bytes k) (patch_via false r k).
Proof.
  intros c r k k0 H. pose proof (patch_entries_ok c k false H) as HE.
  destruct H as [(H1 & H2 & H3 & H4 & H5 & H6 & H7 & H8) Hl Hv Hm].
  unfold load_patch, patch_bytes, patch_head. cbv zeta. rewrite <- !app_assoc.
  do 7 rt1. eapply RT_size_eat; [exact H8|].
  destruct (fits_resize Z c sz_double 0 (zlen (pt_data k)) (pt_data k0)) as (v1 & E1 & L1);
    [reflexivity|apply zlen_nonneg|exact Hm|].
  eapply EX_bind0; [intros; apply lift_ok; rewrite HE; exact E1|].
  eapply EX_last.
  - apply eat1_then. apply rd_raw_array_RB; [apply zlen_length; exact L1|].
    intros o v Hin. apply rd_raw_double_RB. apply dbls_ok_b in Hv. rewrite Forall_forall in Hv. auto.
  - unfold patch_via. rewrite map_via_raw. apply RB_ret.
Qed.

(** ** Splines of either encoding *)

Definition curve_out (a : bool) : Curve -> bytes := if a then curve_text else curve_bytes.
Definition patch_out (a : bool) : Patch -> bytes := if a then patch_text else patch_bytes.

Lemma save_curve_ab : forall c a k, curve_ok c a k -> save_curve c a k = (curve_out a k, Ok tt).
Proof. intros c [|] k H; [eapply save_curve_a|apply save_curve_b]; exact H. Qed.

Lemma load_curve_ab : forall c a k k0, curve_ok c a k ->
  RT (load_curve c a k0) (curve_out a k) (curve_via a back k).
Proof. intros c [|] k k0 H; [apply load_curve_a|apply load_curve_b]; exact H. Qed.

Lemma save_patch_ab : forall c a k, patch_ok c a k -> save_patch c a k = (patch_out a k, Ok tt).
Proof. intros c [|] k H; [eapply save_patch_a|apply save_patch_b]; exact H. Qed.

Lemma load_patch_ab : forall c a k k0, patch_ok c a k ->
  RT (load_patch c a k0) (patch_out a k) (patch_via a back k).
Proof. intros c [|] k k0 H; [apply load_patch_a|apply load_patch_b]; exact H. Qed.

End Printed.
