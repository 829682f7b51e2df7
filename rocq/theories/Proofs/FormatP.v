(** save_msh writes what the format descriptions ask for. *)

From Verif Require Import Model.Save Spec.Text22 Spec.Format Proofs.BytesP Proofs.WriteP Proofs.RtBase Proofs.RtStep Proofs.LayoutP
  Proofs.Rt41A Proofs.Rt41B Proofs.Rt22.
Ltac Zify.zify_post_hook ::= idtac.

Lemma concat_flat_map : forall A (f : A -> bytes) l, List.concat (map f l) = flat_map f l.
Proof. intros A f l. symmetry. apply flat_map_concat_map. Qed.

Lemma flat_map_map : forall A B (f : B -> bytes) (g : A -> B) l, flat_map f (map g l) = flat_map (fun x => f (g x)) l.
Proof. intros A B f g l. induction l as [|x l IH]; [reflexivity|]. cbn [map flat_map]. rewrite IH. reflexivity. Qed.

Lemma flat_map_eq : forall A (f g : A -> bytes) l, (forall x, In x l -> f x = g x) -> flat_map f l = flat_map g l.
Proof.
  intros A f g l H. induction l as [|x l IH]; [reflexivity|]. cbn [flat_map].
  rewrite H by (left; reflexivity). rewrite IH; [reflexivity|]. intros; apply H; right; assumption.
Qed.

Lemma line_text : forall A (show : A -> bytes) l, l <> [] -> line show l = text_line (map show l).
Proof.
  intros A show l. induction l as [|x l IH]; intro H; [congruence|]. destruct l as [|y l]; [reflexivity|].
  cbn [line]. cbn [line] in IH. rewrite IH by discriminate. cbn [map text_line flat_map].
  rewrite <- !app_assoc. reflexivity.
Qed.

Lemma spaced_text : forall A (show : A -> bytes) l, List.concat (map (fun x => sp ++ show x) l) =
  flat_map (fun x => str " " ++ x) (map show l).
Proof. intros. rewrite flat_map_map, concat_flat_map. reflexivity. Qed.

Lemma encode_app : forall a l m, encode a (l ++ m) = encode a l ++ encode a m.
Proof. intros. apply flat_map_app. Qed.

Lemma encode_cons : forall a r l, encode a (r :: l) = encode a [r] ++ encode a l.
Proof. intros. apply (encode_app a [r] l). Qed.

Lemma encode_flat : forall A a (f : A -> list (list field)) l, encode a (flat_map f l) = flat_map (fun x => encode a (f x)) l.
Proof.
  intros A a f l. induction l as [|x l IH]; [reflexivity|]. cbn [flat_map]. rewrite encode_app, IH. reflexivity.
Qed.

Lemma encode_map : forall A a (f : A -> list field) l, encode a (map f l) = flat_map (fun x => encode a [f x]) l.
Proof.
  intros A a f l. induction l as [|x l IH]; [reflexivity|]. cbn [map flat_map]. rewrite encode_cons, IH. reflexivity.
Qed.

Lemma encode_text : forall r, encode true [r] = text_line (map text_of r).
Proof. intro r. cbn [encode flat_map]. apply app_nil_r. Qed.

Lemma encode_raw : forall r, encode false [r] = flat_map raw_of r.
Proof. intro r. cbn [encode flat_map]. apply app_nil_r. Qed.

Lemma raw_concat : forall l, encode false l = flat_map raw_of (List.concat l).
Proof. intro l. induction l as [|r l IH]; [reflexivity|]. rewrite encode_cons, encode_raw, IH. cbn [List.concat]. rewrite flat_map_app. reflexivity. Qed.

Lemma quoted_in : forall n, quoted n = in_quotes n.
Proof.
  intro n. unfold quoted, in_quotes. cbn [app]. f_equal. f_equal. induction n as [|b n IH]; [reflexivity|].
  cbn [quote_body flat_map]. destruct (Byte.eqb b x22) eqn:E1.
  - apply byte_eqb_eq in E1. subst b. cbn [orb app]. rewrite IH. reflexivity.
  - destruct (Byte.eqb b x5c) eqn:E2; cbn [orb app]; rewrite IH; [|reflexivity].
    apply byte_eqb_eq in E2. subst b. reflexivity.
Qed.

(** ** Sections *)

Lemma format_msh : forall s, format_body s = (format_section (mesh_format s), Ok tt).
Proof.
  intro s. unfold format_body, format_section, text_line. cbn [flat_map].
  destruct (file_type (mesh_format s) =? 1); cbn [out wret wseq fst snd]; rewrite <- ?app_assoc; reflexivity.
Qed.

Lemma groups_msh : forall s, groups_body s = (groups_section (physical_groups s), Ok tt).
Proof.
  intro s. unfold groups_body, groups_section. erewrite wseq_ok; [|apply out_ok|apply wfor_ok; intros; apply out_ok].
  rewrite concat_flat_map. f_equal. f_equal. apply flat_map_eq. intros g _. unfold text_line. cbn [flat_map].
  rewrite quoted_in, <- ?app_assoc. reflexivity.
Qed.

Lemma ints_text_msh : forall l, ints_text l = show_Z (zlen l) ++ flat_map (fun x => str " " ++ x) (map show_Z l).
Proof. intro l. unfold ints_text. rewrite spaced_text. reflexivity. Qed.

Lemma text_Int : forall l, map text_of (map Int l) = map show_Z l.
Proof. intro l. rewrite map_map. apply map_ext. reflexivity. Qed.
Lemma text_Size : forall l, map text_of (map Size l) = map show_Z l.
Proof. intro l. rewrite map_map. apply map_ext. reflexivity. Qed.
Lemma text_Real : forall l, map text_of (map Real l) = map show_double l.
Proof. intro l. rewrite map_map. apply map_ext. reflexivity. Qed.
Lemma raw_Int : forall l, flat_map raw_of (map Int l) = raw4 l.
Proof. intro l. unfold raw4. rewrite flat_map_map, concat_flat_map. reflexivity. Qed.
Lemma raw_Size : forall l, flat_map raw_of (map Size l) = raw8 l.
Proof. intro l. unfold raw8. rewrite flat_map_map, concat_flat_map. reflexivity. Qed.
Lemma raw_Real : forall l, flat_map raw_of (map Real l) = raw8 l.
Proof. intro l. unfold raw8. rewrite flat_map_map, concat_flat_map. reflexivity. Qed.

Lemma point_msh : forall (a : bool) p, (if a then point_text p else point_bytes p) = encode a [point_record p].
Proof.
  intros [] p; [rewrite encode_text|rewrite encode_raw]; unfold point_record, counted.
  - unfold point_text. rewrite ints_text_msh. cbn [map app text_line text_of flat_map]. rewrite text_Int, <- !app_assoc. reflexivity.
  - unfold point_bytes, ints_bytes. cbn [app flat_map raw_of]. rewrite raw_Int, <- ?app_assoc. reflexivity.
Qed.

Lemma entity_msh : forall (a : bool) e, (if a then entity_text e else entity_bytes e) = encode a [entity_record e].
Proof.
  intros [] e; [rewrite encode_text|rewrite encode_raw]; unfold entity_record, counted.
  - unfold entity_text. rewrite !ints_text_msh. cbn [map app text_line text_of flat_map].
    rewrite !map_app, !flat_map_app. cbn [map flat_map text_of]. rewrite !text_Int, <- !app_assoc. reflexivity.
  - unfold entity_bytes, ints_bytes. cbn [app flat_map raw_of]. rewrite !flat_map_app. cbn [flat_map raw_of].
    rewrite !raw_Int, <- ?app_assoc. reflexivity.
Qed.

Lemma entities_msh : forall (a : bool) en, (if a then v41_save_entities_ascii en else v41_save_entities_binary en) =
  (encode a (entities_records en), Ok tt).
Proof.
  intros a en. transitivity ((if a then entities_text en else entities_bytes en), Ok tt : outcome unit).
  { destruct a; [apply save_entities_a|apply save_entities_b]. }
  f_equal. unfold entities_records. rewrite encode_cons, encode_app, !encode_map, !flat_map_app.
  rewrite <- (flat_map_eq _ (if a then point_text else point_bytes)) by (intros p _; pose proof (point_msh a p); destruct a; assumption).
  assert (E : forall l, flat_map (fun x => encode a [entity_record x]) l = flat_map (if a then entity_text else entity_bytes) l)
    by (intro l; apply flat_map_eq; intros p _; symmetry; pose proof (entity_msh a p); destruct a; assumption).
  rewrite !E.
  destruct a; [rewrite encode_text; unfold entities_text|rewrite encode_raw; unfold entities_bytes];
    rewrite !concat_flat_map; cbn [sizes map text_line text_of flat_map raw_of app]; rewrite <- ?app_assoc; reflexivity.
Qed.

Lemma cut_data : forall (l : list Z) n w, 0 <= n -> 0 <= w -> zlen l = n * w ->
  List.concat (cut (Z.to_nat w) (Z.to_nat n) l) = l.
Proof.
  intros l n w Hn Hw H.
  assert (G : forall k m (d : list Z), List.length d = (m * k)%nat -> List.concat (cut k m d) = d).
  { intros k m. induction m as [|m IH]; intros d Hd; cbn [cut List.concat].
    - destruct d; [reflexivity|discriminate Hd].
    - rewrite IH; [apply firstn_skipn|]. rewrite skipn_length. lia. }
  apply G. unfold zlen in H. nia.
Qed.

Lemma rows_len : forall (l : list Z) n w r, zlen l = n * w -> 0 <= w -> In r (rows n w l) -> zlen r = w.
Proof.
  intros l n w r HL Hw Hr. unfold rows in Hr. apply in_map_iff in Hr. destruct Hr as (j & <- & Hj).
  apply in_iota in Hj. eapply row_zlen; eauto.
Qed.

Lemma zlen_pos_nonnil : forall A (l : list A), 1 <= zlen l -> l <> [].
Proof. intros A l H ->. cbn in H. lia. Qed.

Lemma node_block_msh : forall c a b, node_block_ok c a b -> (a = true -> 1 <= node_width b) ->
  (if a then node_block_text b else node_block_bytes b) = encode a (node_block_records b).
Proof.
  intros c a b H Hw. pose proof (nbo_width _ _ _ H) as HW. pose proof (nbo_data _ _ _ H) as HD.
  pose proof (nbo_num _ _ _ H) as HN. pose proof (zlen_nonneg _ (nb_tags b)) as HP.
  unfold node_block_records. rewrite encode_cons, encode_app, !encode_map.
  destruct a.
  - unfold node_block_text. rewrite cut_rows by lia. rewrite !concat_flat_map, encode_text.
    cbn [map text_line flat_map text_of]. rewrite <- ?app_assoc. do 7 f_equal. cbn [app].
    f_equal. f_equal.
    { apply flat_map_eq. intros t _. rewrite encode_text. reflexivity. }
    apply flat_map_eq. intros r Hr. rewrite encode_text, text_Real. apply line_text.
    apply zlen_pos_nonnil. exact (eq_ind_r (fun z => 1 <= z) (Hw eq_refl) (rows_len _ _ _ r HD ltac:(lia) Hr)).
  - unfold node_block_bytes. rewrite encode_raw. cbn [flat_map raw_of]. rewrite <- ?app_assoc. do 4 f_equal. cbn [app].
    rewrite <- !encode_map, !raw_concat. f_equal.
    + rewrite <- raw_Size. f_equal. clear. induction (nb_tags b) as [|t l IH]; [reflexivity|]. cbn [map List.concat app]. rewrite <- IH. reflexivity.
    + rewrite <- concat_map, <- raw_Real. do 2 f_equal. symmetry. exact (cut_data (nb_data b) (nb_num b) (node_width b) ltac:(lia) ltac:(lia) HD).
Qed.

Lemma nodes41_msh : forall c a n, nodes_ok c a n -> (a = true -> Forall (fun b => 1 <= node_width b) (n_blocks n)) ->
  (if a then v41_save_nodes_ascii n else v41_save_nodes_binary n) = (encode a (nodes_records n), Ok tt).
Proof.
  intros c a n H Hw. pose proof (no_blocks _ _ _ H) as HB. rewrite Forall_forall in HB.
  transitivity ((if a then nodes_text n else nodes_bytes n), Ok tt : outcome unit).
  { destruct a; [eapply save_nodes_a|eapply save_nodes_b]; exact H. }
  f_equal. unfold nodes_records. rewrite encode_cons, encode_flat.
  rewrite <- (flat_map_eq _ (if a then node_block_text else node_block_bytes)).
  - destruct a; [rewrite encode_text; unfold nodes_text|rewrite encode_raw; unfold nodes_bytes];
      rewrite !concat_flat_map; cbn [sizes map text_line text_of flat_map raw_of app]; rewrite <- ?app_assoc; reflexivity.
  - intros b Hb. rewrite <- (node_block_msh c a b (HB b Hb)); [destruct a; reflexivity|].
    intro E. specialize (Hw E). rewrite Forall_forall in Hw. auto.
Qed.

Lemma nodes22_msh : forall c a n, nodes_save c a n ->
  (if a then v22_save_nodes_ascii n else v22_save_nodes_binary n) =
  (text_line [show_Z (n_num_nodes n)] ++ encode a (map node_record (mesh_nodes n)), Ok tt).
Proof.
  intros c a n H. rewrite (save_nodes_22 c a n H). f_equal. rewrite encode_map, concat_flat_map.
  unfold text_line. cbn [flat_map]. rewrite <- app_assoc. f_equal. cbn [app]. f_equal. apply flat_map_eq. intros x _.
  destruct a; [rewrite encode_text|rewrite encode_raw]; unfold node_record, node_line, node_bytes;
    cbn [map text_line text_of flat_map raw_of app]; rewrite <- ?app_assoc, ?app_nil_r; reflexivity.
Qed.

Lemma block_elements_words : forall b n, gmsh_nodes (eb_type b) = Some n -> 1 <= n -> 0 <= eb_num b ->
  zlen (eb_data b) = eb_num b * (n + 1) ->
  map element_words (block_elements b) = rows (eb_num b) (n + 1) (eb_data b).
Proof.
  intros b n G N E L. unfold block_elements. rewrite G, map_map, cut_rows by lia.
  rewrite <- (map_id (rows _ _ _)) at 2. apply map_ext_in. intros r Hr.
  pose proof (rows_len _ _ _ r L ltac:(lia) Hr) as Z. unfold element_words, element_of. cbn [el_tag el_nodes].
  destruct r; [rewrite zlen_nil in Z; lia|reflexivity].
Qed.

Lemma element_block_msh : forall c a b, element_block_ok c b ->
  (if a : bool then element_block_text (npe b) b else element_block_bytes b) = encode a (element_block_records b).
Proof.
  intros c a b [Hd Ht Hn (n & G & L) Hv Hm]. unfold npe. rewrite G.
  pose proof G as G'. apply gmsh_nodes_spec in G'. destruct G' as (_ & N & _).
  unfold size_ok in Hn.
  pose proof (block_elements_words b n G ltac:(lia) ltac:(lia) L) as E.
  unfold element_block_records. rewrite <- (map_map element_words (map Size)), E, encode_cons, encode_map.
  destruct a.
  - unfold element_block_text. rewrite encode_text, concat_flat_map. cbn [map text_line text_of flat_map].
    rewrite <- ?app_assoc. do 7 f_equal. cbn [app]. f_equal. apply flat_map_eq. intros r Hr.
    rewrite encode_text, text_Size. apply line_text. apply zlen_pos_nonnil.
    rewrite (rows_len _ _ _ r L); [lia|lia|exact Hr].
  - unfold element_block_bytes. rewrite encode_raw. cbn [flat_map raw_of]. rewrite <- ?app_assoc. do 4 f_equal. cbn [app].
    rewrite <- encode_map, raw_concat, <- concat_map, <- cut_rows, cut_data, raw_Size by lia. reflexivity.
Qed.

Lemma elements41_msh : forall c a e, elements_ok c e ->
  (if a : bool then v41_save_elements_ascii e else v41_save_elements_binary e) = (encode a (elements_records e), Ok tt).
Proof.
  intros c a e H. pose proof (eo_blocks _ _ H) as HB. rewrite Forall_forall in HB.
  transitivity ((if a then elements_text e else elements_bytes e), Ok tt : outcome unit).
  { destruct a; [eapply save_elements_a|eapply save_elements_b]; exact H. }
  f_equal. unfold elements_records. rewrite encode_cons, encode_flat.
  rewrite <- (flat_map_eq _ (if a then (fun b => element_block_text (npe b) b) else element_block_bytes)).
  - destruct a; [rewrite encode_text; unfold elements_text|rewrite encode_raw; unfold elements_bytes];
      rewrite !concat_flat_map; cbn [sizes map text_line text_of flat_map raw_of app]; rewrite <- ?app_assoc; reflexivity.
  - intros b Hb. rewrite <- (element_block_msh c a b (HB b Hb)). destruct a; reflexivity.
Qed.

Lemma elements22_msh : forall c a e, elements_save c a e ->
  (if a then v22_save_elements_ascii e else v22_save_elements_binary e) =
  (text_line [show_Z (e_num_elements e)] ++
   encode a (if a then map element_text_record (mesh_elements e) else flat_map element_raw_records (e_blocks e)), Ok tt).
Proof.
  intros c a e H. rewrite (save_elements_22 c a e H). f_equal. unfold text_line. cbn [flat_map]. rewrite <- app_assoc. f_equal.
  cbn [app]. f_equal. destruct H as [_ HB _ _]. rewrite Forall_forall in HB. destruct a.
  - unfold mesh_elements. rewrite encode_map, concat_flat_map. induction (e_blocks e) as [|b l IH]; [reflexivity|].
    cbn [flat_map]. rewrite flat_map_app, IH by (intros; apply HB; right; assumption). f_equal.
    specialize (HB b (or_introl eq_refl)). rewrite (block_elements_rows c true b HB), concat_flat_map, flat_map_map.
    apply flat_map_eq. intros r Hr. pose proof (erows_row c true b r HB Hr) as Z.
    destruct (block_facts c true b HB) as (_ & N1 & _).
    rewrite encode_text. unfold element_line, element_text_record. rewrite text_Int, line_text.
    + cbn [map text_line app element_of el_tag el_type el_ent el_nodes flat_map]. destruct (tl r) as [|y l'] eqn:E.
      * destruct r as [|x [|]]; try discriminate E; unfold width in Z; [rewrite zlen_nil in Z|rewrite zlen_cons, zlen_nil in Z]; lia.
      * cbn [map text_line flat_map]. rewrite <- ?app_assoc. reflexivity.
    + apply zlen_pos_nonnil. rewrite (tl_zlen _ r (npe b)); [exact N1|lia|exact Z].
  - rewrite map_map, concat_flat_map, encode_flat. apply flat_map_eq. intros b Hb. specialize (HB b Hb).
    unfold block22_bytes, element_raw_records. cbn [block22_of bl_type bl_ntags bl_recs].
    unfold block_recs. rewrite zlen_map, (erows_zlen c false b HB), (block_elements_rows c false b HB).
    rewrite encode_cons, encode_raw, !map_map, encode_map. cbn [map flat_map raw_of]. rewrite app_nil_r, <- ?app_assoc.
    do 3 f_equal. rewrite concat_flat_map. apply flat_map_eq. intros r _. rewrite encode_raw.
    unfold rec_bytes, rec_of. cbn [er_id er_tags er_nodes element_of el_tag el_ent el_nodes app map flat_map raw_of].
    rewrite raw_Int. unfold Text22.ints, raw4. cbn [map List.concat]. rewrite app_nil_r, <- ?app_assoc.
    assert (T : forall z, le 4 (to_int z) = le 4 z).
    { intro z. apply le_mod. rewrite <- unle_le4. change (256 ^ Z.of_nat 4) with two32. unfold to_int.
      rewrite unle_le4. destruct (z mod two32 <? 2147483648); [|rewrite Zminus_mod, Z_mod_same_full, Z.sub_0_r, Zmod_mod];
      rewrite ?Zmod_mod; reflexivity. }
    rewrite T, map_map. do 3 f_equal. apply map_ext. exact T.
Qed.

Lemma tags_msh : forall h, header_text h = tags_section h.
Proof.
  intro h. unfold header_text, tags_section. rewrite !encode_app, !encode_map, !encode_text, !concat_flat_map.
  rewrite (flat_map_eq _ (fun t => quoted t ++ endl) (fun t => text_line [in_quotes t])) by (intros t _; rewrite quoted_in; reflexivity).
  rewrite (flat_map_eq _ (fun t => show_double t ++ endl) (fun t => encode true [[Real t]])) by (intros t _; rewrite encode_text; reflexivity).
  rewrite (flat_map_eq _ (fun t => show_Z t ++ endl) (fun t => encode true [[Int t]])) by (intros t _; rewrite encode_text; reflexivity).
  cbn [map text_of]. unfold text_line. cbn [flat_map app]. rewrite <- !app_assoc. reflexivity.
Qed.

Lemma data_msh : forall v b pn d, v = v41s \/ v = v22s -> (b = false -> Forall (fun e => de_data e <> []) (d_entries d)) ->
  save_data v b pn d = (data_section b pn d, Ok tt).
Proof.
  intros v b pn d V H. transitivity ((if b then data_bytes pn d else data_text pn d), Ok tt : outcome unit).
  { destruct b; [apply save_data_b, V|apply save_data_a]. }
  f_equal. unfold data_section. rewrite encode_map.
  destruct b; cbn [negb]; [unfold data_bytes|unfold data_text]; rewrite tags_msh, concat_flat_map; f_equal;
    apply flat_map_eq; intros e He.
  - unfold entry_bytes, entry_record. rewrite encode_raw. cbn [flat_map raw_of]. rewrite flat_map_app, raw_Real.
    destruct pn; cbn [flat_map raw_of]; rewrite ?app_nil_r; reflexivity.
  - specialize (H eq_refl). rewrite Forall_forall in H. specialize (H e He).
    unfold entry_text, entry_record. rewrite encode_text, line_text by exact H.
    cbn [map]. rewrite map_app, text_Real. destruct (de_data e) as [|x l]; [congruence|].
    destruct pn; unfold text_line; cbn [map app flat_map text_of]; rewrite <- ?app_assoc; reflexivity.
Qed.

Lemma cps_cut : forall (l : list Z) ncp d, 0 <= ncp -> 0 <= d -> ncp * d <= zlen l ->
  rows ncp d (cps ncp d l) = cut (Z.to_nat d) (Z.to_nat ncp) l.
Proof.
  intros l ncp d Hn Hd HL. rewrite cut_rows by assumption. unfold rows. apply map_ext_in. intros j Hj. apply in_iota in Hj.
  unfold row, cps. rewrite skipn_firstn_comm, firstn_firstn. f_equal. nia.
Qed.

Lemma spline_msh : forall a head ncp w data, 0 <= ncp -> ncp * cp_dim w <= zlen data ->
  (if a : bool then head ++ List.concat (map (line show_double) (rows ncp (cp_dim w) (cps ncp (cp_dim w) data))) ++
                    each show_double (knots ncp (cp_dim w) data)
   else head ++ raw8 data) = head ++ spline_data a ncp w data.
Proof.
  intros a head ncp w data Hn HL. unfold spline_data. cbv zeta.
  assert (Hd : 3 <= cp_dim w) by (unfold cp_dim; destruct (0 <? w); lia).
  rewrite encode_app, !encode_map. destruct a; f_equal.
  - rewrite !concat_flat_map. f_equal.
    + transitivity (flat_map (line show_double) (cut (Z.to_nat (cp_dim w)) (Z.to_nat ncp) data)).
      { rewrite <- (cps_cut data ncp (cp_dim w)); [reflexivity|lia|lia|exact HL]. }
      apply flat_map_eq. intros r Hr. rewrite encode_text, text_Real. apply line_text. apply zlen_pos_nonnil.
      assert (Hr' : In r (rows ncp (cp_dim w) (cps ncp (cp_dim w) data))) by (rewrite (cps_cut data); [exact Hr|lia|lia|exact HL]).
      assert (HC : zlen (cps ncp (cp_dim w) data) = ncp * cp_dim w) by (unfold cps, zlen in *; rewrite firstn_length; nia).
      pose proof (rows_len _ _ _ r HC ltac:(lia) Hr') as Q.
      exact (eq_ind_r (fun z => 1 <= z) (ltac:(lia) : 1 <= cp_dim w) Q).
    + unfold each, knots. rewrite concat_flat_map, Z2Nat.inj_mul by lia. apply flat_map_eq. intros x _.
      rewrite encode_text. reflexivity.
  - rewrite <- !encode_map, !raw_concat, <- concat_map.
    assert (S : forall l : list dbl, List.concat (map (fun x => [Real x]) l) = map Real l).
    { induction l as [|x l IH]; [reflexivity|]. cbn [map List.concat app]. rewrite IH. reflexivity. }
    rewrite S, !raw_Real. unfold raw8. rewrite <- concat_app, <- map_app. do 2 f_equal.
    rewrite <- (firstn_skipn (Z.to_nat ncp * Z.to_nat (cp_dim w)) data) at 1. f_equal.
    assert (G : forall k m (d : list Z), List.concat (cut k m d) = firstn (m * k) d).
    { intros k m. induction m as [|m IH]; intro d; [reflexivity|]. cbn [cut List.concat Nat.mul]. rewrite IH.
      rewrite <- (firstn_skipn k (firstn (k + m * k) d)), firstn_firstn, skipn_firstn_comm.
      rewrite Nat.min_l by lia. do 2 f_equal. lia. }
    symmetry. apply G.
Qed.

Lemma curve_msh : forall c a k, curve_ok c a k -> save_curve c a k = (curve_section a k, Ok tt).
Proof.
  intros c a k H. rewrite (save_curve_ab c a k H). f_equal.
  destruct H as [(_ & _ & _ & H4 & H5 & H6) HL _ _]. unfold size_ok in *.
  unfold curve_section. rewrite <- spline_msh by lia. rewrite encode_text.
  destruct a; unfold curve_out, curve_text, curve_bytes, curve_head, text_line; cbv zeta;
    cbn [sizes map text_of flat_map]; rewrite <- !app_assoc; reflexivity.
Qed.

Lemma patch_msh : forall c a k, patch_ok c a k -> save_patch c a k = (patch_section a k, Ok tt).
Proof.
  intros c a k H. rewrite (save_patch_ab c a k H). f_equal.
  destruct H as [(_ & _ & _ & _ & H4 & H5 & H6 & H7) HL _ _]. unfold size_ok in *.
  unfold patch_section. rewrite <- spline_msh by lia. rewrite encode_text.
  destruct a; unfold patch_out, patch_text, patch_bytes, patch_head, text_line; cbv zeta;
    cbn [sizes map text_of flat_map]; rewrite <- !app_assoc; reflexivity.
Qed.

(** ** Whole files *)

Definition written (p : bytes * W) (b : bytes) : Prop := snd p = (b, Ok tt).

Lemma emit_written : forall l bs, Forall2 written l bs -> wfor l emit = (frames (map fst l) bs, Ok tt).
Proof.
  intros l bs H. induction H as [|p b l bs Hp H IH]; [reflexivity|].
  cbn [wfor]. rewrite IH. unfold emit, written in *. rewrite Hp. destruct p as [n w]. cbn [fst snd].
  unfold frames. cbn [map combine List.concat fst snd out wseq]. unfold frame. rewrite <- ?app_assoc. reflexivity.
Qed.

Lemma when_written : forall b p x, (b = true -> written p x) -> Forall2 written (when b [p]) (when b [x]).
Proof. intros [] p x H; cbn [when]; constructor; auto. Qed.

Lemma map_written : forall A (f : A -> bytes * W) g l, (forall x, In x l -> written (f x) (g x)) ->
  Forall2 written (map f l) (map g l).
Proof.
  intros A f g l H. induction l as [|x l IH]; cbn [map]; constructor; [apply H; left; reflexivity|].
  apply IH. intros; apply H; right; assumption.
Qed.

Section File.
Variables (c : cfg) (a : bool) (s : MshSpec).
Hypothesis HT : file_type (mesh_format s) = if a then 0 else 1.
Hypothesis HV : version (mesh_format s) = v41s \/ version (mesh_format s) = v22s.
Hypothesis HN : n_num_nodes (nodes s) <> 0 ->
  if bytes_eqb (version (mesh_format s)) v22s then nodes_save c a (nodes s)
  else nodes_ok c a (nodes s) /\ (a = true -> Forall (fun b => 1 <= node_width b) (n_blocks (nodes s))).
Hypothesis HL : e_num_elements (elements s) <> 0 ->
  if bytes_eqb (version (mesh_format s)) v22s then elements_save c a (elements s) else elements_ok c (elements s).
Hypothesis HD : a = true ->
  Forall (fun d => Forall (fun e => de_data e <> []) (d_entries d)) (node_data s ++ element_data s ++ element_node_data s).
Hypothesis HS : nanospline c = true -> splines_ok c a s.

Lemma data_written : forall name pn ds, (a = true -> Forall (fun d => Forall (fun e => de_data e <> []) (d_entries d)) ds) ->
  Forall2 written (data_secs s name pn ds) (map (b_data msh (0 <? file_type (mesh_format s)) pn) ds).
Proof.
  intros name pn ds H. apply map_written. intros d Hd. unfold written. cbn [snd]. apply data_msh; [exact HV|].
  intro E. assert (A : a = true) by (rewrite HT in E; destruct a; [reflexivity|discriminate E]).
  specialize (H A). rewrite Forall_forall in H. auto.
Qed.

Lemma file_msh : save_msh c s = (frames (section_names c s) (section_bodies msh c s), Ok tt).
Proof.
  rewrite save_sections, <- secs_names. apply emit_written.
  assert (EA : (file_type (mesh_format s) =? 0) = a) by (rewrite HT; destruct a; reflexivity).
  assert (V : bytes_eqb (version (mesh_format s)) v41s = negb (bytes_eqb (version (mesh_format s)) v22s)).
  { destruct HV as [->| ->]; reflexivity. }
  unfold secs, section_bodies. cbv zeta. rewrite EA.
  pose proof HD as HD'. rewrite !Forall_app in HD'.
  apply Forall2_app. { constructor; [|constructor]. apply format_msh. }
  apply Forall2_app. { apply when_written. intros _. apply groups_msh. }
  apply Forall2_app.
  { apply when_written. intro E. apply andb_prop in E. destruct E as (E1 & E2). change (str "2.2") with v22s in E2.
    unfold written, entities_body. cbn [snd]. rewrite V, E2, EA. apply entities_msh. }
  apply Forall2_app.
  { apply when_written. intro E. apply Z.ltb_lt in E. specialize (HN ltac:(lia)).
    unfold written, nodes_body. cbn [snd msh b_nodes]. unfold nodes_section. change (str "2.2") with v22s. rewrite V, EA.
    destruct (bytes_eqb (version (mesh_format s)) v22s); cbn [negb];
      [apply (nodes22_msh c), HN|apply (nodes41_msh c); apply HN]. }
  apply Forall2_app.
  { apply when_written. intro E. apply Z.ltb_lt in E. specialize (HL ltac:(lia)).
    unfold written, elements_body. cbn [snd msh b_elements]. unfold elements_section. change (str "2.2") with v22s. rewrite V, EA.
    destruct (bytes_eqb (version (mesh_format s)) v22s); cbn [negb];
      [apply (elements22_msh c), HL|apply (elements41_msh c); apply HL]. }
  apply Forall2_app. { apply data_written. intro A. apply HD', A. }
  apply Forall2_app. { apply data_written. intro A. apply HD', A. }
  apply Forall2_app. { apply data_written. intro A. apply HD', A. }
  destruct (nanospline c) eqn:N; [|constructor]. cbn [when]. destruct (HS eq_refl) as [_ [HC _] [HP _]].
  rewrite Forall_forall in HC, HP.
  apply Forall2_app. { constructor; [|constructor]. reflexivity. }
  apply Forall2_app; apply when_written; intros _; unfold written, curves_body, patches_body; cbn [snd]; rewrite EA;
    (erewrite wseq_ok; [|apply out_ok|apply wfor_ok; intros k Hk; first [apply curve_msh|apply patch_msh]; auto]);
    rewrite concat_flat_map; reflexivity.
Qed.
End File.

Lemma file41 : forall c a s, consistent41 c a s -> (a = true -> no_empty_lines s) ->
  save_msh c s = (frames (section_names c s) (section_bodies msh c s), Ok tt).
Proof.
  intros c a s [V T _ P E S] W. apply (file_msh c a); auto.
  - intro N. rewrite V. split; [apply (pko_nodes _ _ _ P N)|]. intro A. apply (W A), N.
  - intro N. rewrite V. apply (pko_elements _ _ _ P N).
  - intro A. apply (W A).
Qed.

Lemma file22 : forall c a s, consistent22 c a s -> (a = true -> no_empty_lines s) ->
  save_msh c s = (frames (section_names c s) (section_bodies msh c s), Ok tt).
Proof.
  intros c a s H W. pose proof (ok22_version _ _ _ H) as V. apply (file_msh c a).
  - apply (ok22_type _ _ _ H).
  - right. exact V.
  - intro N. rewrite V. apply (ok22_nodes _ _ _ H N).
  - intro N. rewrite V. apply (ok22_elements _ _ _ H N).
  - intro A. apply (W A).
  - apply (ok22_splines _ _ _ H).
Qed.
