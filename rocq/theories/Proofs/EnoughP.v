(** Forty bytes of memory per byte of the file are enough. *)

From Verif Require Import Model.LoadMsh Spec.Consistent22 Spec.Any22 Spec.Enough Proofs.BytesP Proofs.RtBase Proofs.PostP Proofs.Text41P Proofs.ValidRt Proofs.ConvertP Proofs.Any22P Proofs.RtStep.

Ltac Zify.zify_post_hook ::= idtac.

(** ** Every number takes a byte *)

Lemma forall2_zlen : forall A B (R : A -> B -> Prop) l l', Forall2 R l l' -> zlen l = zlen l'.
Proof. intros A B R l l' H. induction H as [|x y l l' _ _ IH]; [reflexivity|]. rewrite !zlen_cons, IH. reflexivity. Qed.

Lemma some_bytes : forall (l : bytes), l <> [] -> 1 <= zlen l.
Proof. intros [|x l] H; [congruence|]. rewrite zlen_cons. pose proof (zlen_nonneg _ l). lia. Qed.

Lemma laid_count : forall ws t, laid_out ws t -> zlen ws <= zlen t.
Proof.
  intros ws t H. induction H as [|w sep l t B N H IH]; [reflexivity|]. rewrite zlen_cons, !zlen_app.
  pose proof (some_bytes _ N). pose proof (zlen_nonneg _ w). lia.
Qed.
Lemma laid_line_count : forall g ws t, laid_line g ws t -> zlen ws <= zlen t.
Proof.
  intros g ws t H. induction H as [w|w sep l t B N H IH]; rewrite ?zlen_cons, ?zlen_app; pose proof (zlen_nonneg _ w).
  - rewrite ?zlen_cons, ?zlen_nil. lia.
  - pose proof (some_bytes _ N). lia.
Qed.
Lemma text_count : forall ks t, text_like ks t -> zlen ks <= zlen t.
Proof. intros ks t (ws & F & L). rewrite (forall2_zlen _ _ _ _ _ F). apply laid_count. exact L. Qed.
Lemma line_count : forall ks t, line_like ks t -> zlen ks <= zlen t.
Proof. intros ks t (ws & g & _ & F & L). rewrite (forall2_zlen _ _ _ _ _ F). eapply laid_line_count. exact L. Qed.

Lemma raw_count : forall l, zlen l <= zlen (flat_map raw_of l).
Proof.
  intro l. apply pieces_zlen. apply Forall_forall. intros [z|z|z] _ X; apply (f_equal (@List.length byte)) in X;
    cbn [raw_of] in X; rewrite le_length in X; discriminate.
Qed.
Lemma encode_count : forall rs, zlen (List.concat rs) <= zlen (encode false rs).
Proof.
  intro rs. unfold encode. induction rs as [|r rs IH]; [reflexivity|]. cbn [List.concat flat_map]. rewrite !zlen_app.
  pose proof (raw_count r). lia.
Qed.
Lemma body_count : forall ascii rs t, body_like ascii rs t -> zlen (List.concat rs) <= zlen t.
Proof.
  intros [] rs t H.
  - apply text_count in H. unfold fields in H. rewrite zlen_map in H. exact H.
  - destruct H as (sep & _ & ->). rewrite zlen_app. pose proof (encode_count rs). pose proof (zlen_nonneg _ sep). lia.
Qed.

(** ** Pieces of a list *)

Lemma pieces_at_least : forall A B (f : A -> list B) k l, (forall x, k <= zlen (f x)) -> k * zlen l <= zlen (flat_map f l).
Proof.
  intros A B f k l H. induction l as [|x l IH]; [cbn [flat_map]; rewrite !zlen_nil; lia|]. cbn [flat_map]. rewrite zlen_cons, zlen_app.
  specialize (H x). lia.
Qed.
Lemma concat_map_flat : forall A B (f : A -> list B) l, List.concat (map f l) = flat_map f l.
Proof. intros. symmetry. apply flat_map_concat_map. Qed.

Lemma counted_zlen : forall l, zlen (counted l) = zlen l + 1.
Proof. intro l. unfold counted. rewrite zlen_cons, zlen_map. lia. Qed.

Definition room (c : cfg) (L : Z) : Prop := 40 * L <= mem c.

Lemma fits_room : forall c sz n L, fits (boundless c) sz n -> n * sz <= 40 * L -> room c L -> fits c sz n.
Proof. intros c sz n L [H _] H1 H2. split; [exact H|]. unfold room in H2. lia. Qed.

Lemma ints_room : forall c l L, ints_ok (boundless c) l -> zlen l <= L -> room c L -> ints_ok c l.
Proof.
  intros c l L [H1 H2] H3 R. split; [exact H1|]. eapply fits_room; [exact H2| |exact R]. change sz_int with 4.
  pose proof (zlen_nonneg _ l). lia.
Qed.

Lemma dbl_room : forall c (l : list dbl) L, fits (boundless c) sz_double (zlen l) -> zlen l <= L -> room c L -> fits c sz_double (zlen l).
Proof.
  intros c l L H H3 R. eapply fits_room; [exact H| |exact R]. change sz_double with 8. pose proof (zlen_nonneg _ l). lia.
Qed.

(** ** Sections *)

Lemma groups_room : forall c l t, text_like (int_word (zlen l) :: flat_map group_kinds l) t ->
  groups_ok (boundless c) l -> room c (zlen t) -> groups_ok c l.
Proof.
  intros c l t T [G1 G2 G3] R. split; [exact G1|exact G2|]. apply text_count in T. rewrite zlen_cons in T.
  assert (3 * zlen l <= zlen (flat_map group_kinds l)) by (apply pieces_at_least; intro; reflexivity).
  eapply fits_room; [exact G3| |exact R]. change sz_PhysicalGroup with 40. pose proof (zlen_nonneg _ l). lia.
Qed.

Lemma entities_room : forall c ascii e t, body_like ascii (entities_records e) t ->
  entities_ok (boundless c) ascii e -> room c (zlen t) -> entities_ok c ascii e.
Proof.
  intros c ascii e t T [[E1 F1] [E2 F2] [E3 F3] [E4 F4]] R. apply body_count in T. unfold entities_records in T.
  cbn [List.concat] in T. rewrite concat_app, !concat_map_flat, !flat_map_app, !zlen_app in T.
  set (P := zlen (flat_map point_record (points e))) in *. set (C1 := zlen (flat_map entity_record (curves_e e))) in *.
  set (C2 := zlen (flat_map entity_record (surfaces_e e))) in *. set (C3 := zlen (flat_map entity_record (volumes_e e))) in *.
  assert (NN : 0 <= P /\ 0 <= C1 /\ 0 <= C2 /\ 0 <= C3) by (repeat split; apply zlen_nonneg).
  change (zlen (sizes [zlen (points e); zlen (curves_e e); zlen (surfaces_e e); zlen (volumes_e e)])) with 4 in T.
  assert (PR : forall p, 5 + zlen (pe_phys p) <= zlen (point_record p)).
  { intro p. unfold point_record. rewrite zlen_app, counted_zlen. rewrite !zlen_cons, zlen_nil. lia. }
  assert (ER : forall p, 9 + zlen (en_phys p) + zlen (en_bnd p) <= zlen (entity_record p)).
  { intro p. unfold entity_record. rewrite !zlen_app, !counted_zlen. rewrite !zlen_cons, zlen_nil. lia. }
  assert (EQ : forall l, Forall (entity_ok (boundless c) ascii) l -> fits (boundless c) sz_Entity (zlen l) ->
            zlen (flat_map entity_record l) <= zlen t -> Forall (entity_ok c ascii) l /\ fits c sz_Entity (zlen l)).
  { intros l H F B. split.
    - apply Forall_forall. intros x Hx. rewrite Forall_forall in H. destruct (H x Hx) as [X1 X2 X3 X4 X5].
      pose proof (flat_map_zlen _ _ entity_record l x Hx). pose proof (ER x). pose proof (zlen_nonneg _ (en_phys x)). pose proof (zlen_nonneg _ (en_bnd x)).
      split; [exact X1|exact X2|exact X3| |]; (eapply ints_room; [eassumption| |exact R]); lia.
    - assert (9 * zlen l <= zlen (flat_map entity_record l)).
      { apply pieces_at_least. intro x. pose proof (ER x). pose proof (zlen_nonneg _ (en_phys x)). pose proof (zlen_nonneg _ (en_bnd x)). lia. }
      eapply fits_room; [exact F| |exact R]. change sz_Entity with 104. pose proof (zlen_nonneg _ l). lia. }
  split.
  - split.
    + apply Forall_forall. intros x Hx. rewrite Forall_forall in E1. destruct (E1 x Hx) as [X1 X2 X3].
      pose proof (flat_map_zlen _ _ point_record _ x Hx) as Y. fold P in Y. pose proof (PR x). pose proof (zlen_nonneg _ (pe_phys x)).
      split; [exact X1|exact X2|]. eapply ints_room; [eassumption| |exact R]. lia.
    + assert (Y : 5 * zlen (points e) <= P).
      { apply pieces_at_least. intro x. pose proof (PR x). pose proof (zlen_nonneg _ (pe_phys x)). lia. }
      eapply fits_room; [exact F1| |exact R]. change sz_PointEntity with 56. pose proof (zlen_nonneg _ (points e)). lia.
  - apply EQ; [assumption|assumption|]. fold C1. lia.
  - apply EQ; [assumption|assumption|]. fold C2. lia.
  - apply EQ; [assumption|assumption|]. fold C3. lia.
Qed.

Lemma concat_flat_map : forall A B (f : A -> list (list B)) l, List.concat (flat_map f l) = flat_map (fun x => List.concat (f x)) l.
Proof. intros. induction l as [|x l IH]; [reflexivity|]. cbn [flat_map]. rewrite concat_app, IH. reflexivity. Qed.

Lemma concat_maps : forall A B (f : A -> B) l, List.concat (map (map f) l) = map f (List.concat l).
Proof. intros. symmetry. apply concat_map. Qed.

Lemma node_block_zlen : forall c ascii b, node_block_ok c ascii b ->
  zlen (List.concat (node_block_records b)) = 4 + zlen (nb_tags b) + zlen (nb_data b).
Proof.
  intros c ascii b [_ _ _ _ N _ W D _ _ _]. unfold node_block_records. cbn [List.concat]. rewrite concat_app, !zlen_app.
  rewrite concat_map_flat, concat_maps, zlen_map. pose proof (zlen_nonneg _ (nb_tags b)).
  rewrite cut_concat.
  - assert (X : zlen (flat_map (fun t => [Size t]) (nb_tags b)) = zlen (nb_tags b)).
    { clear. unfold zlen. f_equal. induction (nb_tags b) as [|x l IH]; [reflexivity|]. cbn. f_equal. apply IH. }
    rewrite X. rewrite !zlen_cons, zlen_nil. lia.
  - apply Nat2Z.inj. rewrite Nat2Z.inj_mul, !Z2Nat.id by lia. exact D.
Qed.

Lemma nodes_room : forall c ascii n t, body_like ascii (nodes_records n) t ->
  nodes_ok (boundless c) ascii n -> room c (zlen t) -> nodes_ok c ascii n.
Proof.
  intros c ascii n t T [N1 N2 N3 N4 N5] R. apply body_count in T. unfold nodes_records in T. cbn [List.concat] in T.
  rewrite zlen_app, concat_flat_map in T. set (f := fun b => List.concat (node_block_records b)) in *.
  change (zlen (sizes [n_num_blocks n; n_num_nodes n; n_min n; n_max n])) with 4 in T.
  assert (F4 : forall b, 4 <= zlen (f b)).
  { intro b. unfold f, node_block_records. cbn [List.concat]. rewrite zlen_app, !zlen_cons, zlen_nil.
    pose proof (zlen_nonneg _ (List.concat (map (fun t => [Size t]) (nb_tags b) ++ map (map Real) (cut (Z.to_nat (node_width b)) (Z.to_nat (nb_num b)) (nb_data b))))).
    lia. }
  pose proof (pieces_at_least _ _ f 4 (n_blocks n) F4) as P4. pose proof (zlen_nonneg _ (n_blocks n)) as PB.
  split; [exact N1|exact N2|exact N3| |].
  - eapply fits_room; [exact N4| |exact R]. change sz_NodeBlock with 72. lia.
  - rewrite Forall_forall in *. intros b Hb. pose proof (node_block_zlen _ _ _ (N5 b Hb)) as Z. fold (f b) in Z.
    pose proof (flat_map_zlen _ _ f _ b Hb) as Y. pose proof (zlen_nonneg _ (nb_tags b)). pose proof (zlen_nonneg _ (nb_data b)).
    destruct (N5 b Hb) as [B1 B2 B3 B4 B5 B6 B7 B8 B9 B10 B11]. split; try assumption.
    + eapply fits_room; [exact B10| |exact R]. change sz_size with 8. lia.
    + eapply fits_room; [exact B11| |exact R]. change sz_double with 8. lia.
Qed.

Lemma block_data : forall c b, element_block_ok c b -> eb_data b = flat_map element_words (block_elements b).
Proof.
  intros c b [_ _ [B1 B2] (n & Hn & Hd) _ _]. destruct (gmsh_nodes_spec _ _ Hn) as (_ & N1 & _).
  set (k := Z.to_nat (n + 1)). set (num := Z.to_nat (eb_num b)).
  assert (L : List.length (eb_data b) = (num * k)%nat).
  { unfold zlen in Hd. unfold num, k. apply Nat2Z.inj. rewrite Hd, Nat2Z.inj_mul, !Z2Nat.id by lia. reflexivity. }
  unfold block_elements. rewrite Hn. fold k num. rewrite flat_map_concat_map, map_map.
  rewrite <- (cut_concat _ _ _ L) at 1. f_equal. rewrite <- (map_id (cut k num (eb_data b))) at 1.
  apply map_ext_in. intros r Hr. pose proof (cut_row_length _ _ _ _ L Hr) as R.
  destruct r as [|x r]; [exfalso; cbn in R; unfold k in R; lia|]. reflexivity.
Qed.

Lemma elements_room : forall c ascii e t, body_like ascii (elements_records e) t ->
  elements_ok (boundless c) e -> room c (zlen t) -> elements_ok c e.
Proof.
  intros c ascii e t T [N1 N2 N3 N4 N5] R. apply body_count in T. unfold elements_records in T. cbn [List.concat] in T.
  rewrite zlen_app, concat_flat_map in T. set (f := fun b => List.concat (element_block_records b)) in *.
  change (zlen (sizes [e_num_blocks e; e_num_elements e; e_min e; e_max e])) with 4 in T.
  assert (FE : forall b, zlen (f b) = 4 + zlen (flat_map element_words (block_elements b))).
  { intro b. unfold f, element_block_records. cbn [List.concat]. rewrite zlen_app, concat_map_flat, !zlen_cons, zlen_nil.
    rewrite <- (zlen_map _ _ Size (flat_map element_words (block_elements b))). f_equal. f_equal.
    induction (block_elements b) as [|x l IH]; [reflexivity|]. cbn [flat_map]. rewrite map_app, IH. reflexivity. }
  assert (F4 : forall b, 4 <= zlen (f b)).
  { intro b. rewrite FE. pose proof (zlen_nonneg _ (flat_map element_words (block_elements b))). lia. }
  pose proof (pieces_at_least _ _ f 4 (e_blocks e) F4) as P4. pose proof (zlen_nonneg _ (e_blocks e)) as PB.
  split; [exact N1|exact N2|exact N3| |].
  - eapply fits_room; [exact N4| |exact R]. change sz_ElementBlock with 48. lia.
  - rewrite Forall_forall in *. intros b Hb. pose proof (FE b) as Z. rewrite <- (block_data _ _ (N5 b Hb)) in Z.
    pose proof (flat_map_zlen _ _ f _ b Hb) as Y. pose proof (zlen_nonneg _ (eb_data b)).
    destruct (N5 b Hb) as [B1 B2 B3 B4 B5 B6]. split; try assumption.
    eapply fits_room; [exact B6| |exact R]. change sz_size with 8. lia.
Qed.

Lemma tags_kinds_zlen : forall h, zlen (tags_kinds h) = 3 + zlen (string_tags h) + zlen (real_tags h) + zlen (int_tags h).
Proof.
  intro h. unfold tags_kinds. repeat (rewrite zlen_cons || rewrite zlen_app || rewrite zlen_map). lia.
Qed.

Lemma fold_least : forall A (w : A -> Z) k l, (forall x, k <= w x) -> k * zlen l <= fold_right (fun x n => w x + n) 0 l.
Proof. intros A w k l H. induction l as [|x l IH]; [rewrite zlen_nil; cbn; lia|]. cbn [fold_right]. rewrite zlen_cons. specialize (H x). lia. Qed.
Lemma fold_member : forall A (w : A -> Z) l x, (forall x, 0 <= w x) -> In x l -> w x <= fold_right (fun x n => w x + n) 0 l.
Proof.
  intros A w l x H. induction l as [|y l IH]; intro I; [destruct I|]. cbn [fold_right].
  assert (0 <= fold_right (fun x n => w x + n) 0 l) by (clear - H; induction l as [|z l IH]; [reflexivity|]; cbn [fold_right]; specialize (H z); lia).
  pose proof (H y). destruct I as [->|I]; [lia|]. specialize (IH I). lia.
Qed.

Lemma fold_pieces : forall A B (f : A -> list B) l, fold_right (fun x n => zlen (f x) + n) 0 l = zlen (flat_map f l).
Proof. intros A B f l. induction l as [|x l IH]; [reflexivity|]. cbn [flat_map fold_right]. rewrite zlen_app, IH. reflexivity. Qed.
Lemma fold_up : forall A (v w : A -> Z) l, (forall x, v x <= w x) -> fold_right (fun x n => v x + n) 0 l <= fold_right (fun x n => w x + n) 0 l.
Proof. intros A v w l H. induction l as [|x l IH]; [reflexivity|]. cbn [fold_right]. specialize (H x). lia. Qed.

Lemma data_room : forall c ascii per d t, data_like ascii per d t -> data_ok (boundless c) ascii per d -> room c (zlen t) ->
  data_ok c ascii per d.
Proof.
  intros c ascii per d t T [D1 D2 D3 D4 D5 D6] R. set (w := fun e => 1 + zlen (de_data e)).
  set (W := fold_right (fun e n => w e + n) 0 (d_entries d)).
  assert (X : zlen (tags_kinds (d_header d)) + W <= zlen t).
  { destruct ascii.
    - apply text_count in T. rewrite zlen_app, <- fold_pieces in T.
      assert (Y : W <= fold_right (fun e n => zlen (entry_kinds per e) + n) 0 (d_entries d)); [|lia].
      apply fold_up. intro e. unfold w, entry_kinds. rewrite zlen_cons, zlen_app, zlen_map. destruct per; rewrite ?zlen_cons, zlen_nil; lia.
    - destruct T as (h & sep & T & _ & ->). apply line_count in T. rewrite !zlen_app. pose proof (zlen_nonneg _ sep).
      pose proof (encode_count (map (entry_record per) (d_entries d))) as EC. rewrite concat_map_flat, <- fold_pieces in EC.
      assert (Y : W <= fold_right (fun e n => zlen (entry_record per e) + n) 0 (d_entries d)); [|lia].
      apply fold_up. intro e. unfold w, entry_record. rewrite zlen_cons, zlen_app, zlen_map. destruct per; rewrite ?zlen_cons, zlen_nil; lia. }
  rewrite tags_kinds_zlen in X. pose proof (zlen_nonneg _ (string_tags (d_header d))). pose proof (zlen_nonneg _ (real_tags (d_header d))).
  pose proof (zlen_nonneg _ (int_tags (d_header d))). pose proof (zlen_nonneg _ (d_entries d)).
  assert (P1 : 1 * zlen (d_entries d) <= W).
  { apply fold_least. intro e. unfold w. pose proof (zlen_nonneg _ (de_data e)). lia. }
  split.
  - eapply fits_room; [exact D1| |exact R]. change sz_string with 32. lia.
  - exact D2.
  - eapply dbl_room; [exact D3| |exact R]. lia.
  - eapply ints_room; [exact D4| |exact R]. lia.
  - destruct D5 as (i0 & k & l & E & F). exists i0, k, l. split; [exact E|]. apply Forall_forall. intros e He. rewrite Forall_forall in F.
    destruct (F e He) as [X1 X2 X3 X4 X5]. split; try assumption. eapply dbl_room; [exact X5| |exact R].
    assert (Y : w e <= W).
    { apply fold_member; [|exact He]. intro x. unfold w. pose proof (zlen_nonneg _ (de_data x)). lia. }
    unfold w in Y. lia.
  - eapply fits_room; [exact D6| |exact R]. change sz_DataEntry with 40. lia.
Qed.

Lemma spline_count : forall ascii head data t, spline_like ascii head data t -> zlen head + zlen data <= zlen t.
Proof.
  intros [] head data t H.
  - apply text_count in H. rewrite zlen_app, !zlen_map in H. exact H.
  - destruct H as (h & sep & L & _ & ->). apply line_count in L. rewrite zlen_map in L. rewrite !zlen_app. pose proof (zlen_nonneg _ sep).
    pose proof (encode_count [map Real data]) as E. cbn [List.concat] in E. rewrite app_nil_r, zlen_map in E. lia.
Qed.

Lemma counted_count : forall A (one : A -> bytes -> Prop) (w : A -> Z) l t, (forall x u, one x u -> w x <= zlen u) ->
  counted_like one l t -> fold_right (fun x n => w x + n) 0 l <= zlen t.
Proof.
  intros A one w l t H (h & ts & _ & F & ->). rewrite zlen_app. pose proof (zlen_nonneg _ h).
  assert (fold_right (fun x n => w x + n) 0 l <= zlen (List.concat ts)); [|lia].
  induction F as [|x u l ts O F IH]; [reflexivity|]. cbn [fold_right List.concat]. rewrite zlen_app. specialize (H _ _ O). lia.
Qed.

Lemma curves_room : forall c ascii l t, counted_like (curve_like ascii) l t -> room c (zlen t) ->
  Forall (curve_ok (boundless c) ascii) l -> fits (boundless c) sz_Curve (zlen l) ->
  Forall (curve_ok c ascii) l /\ fits c sz_Curve (zlen l).
Proof.
  intros c ascii l t T R F M. apply (counted_count _ _ (fun k => 6 + zlen (cv_data k))) in T.
  2:{ intros k u H. apply spline_count in H. rewrite !zlen_cons, zlen_nil in H. lia. }
  assert (P : forall k, 6 <= 6 + zlen (cv_data k)) by (intro k; pose proof (zlen_nonneg _ (cv_data k)); lia).
  split.
  - rewrite Forall_forall in *. intros k Hk. destruct (F k Hk) as [X1 X2 X3 X4]. split; try assumption.
    eapply dbl_room; [exact X4| |exact R]. pose proof (fold_member _ (fun k => 6 + zlen (cv_data k)) l k) as Y.
    cbv beta in Y. specialize (Y (fun x => Z.le_trans 0 6 _ ltac:(discriminate) (P x)) Hk). lia.
  - pose proof (fold_least _ _ 6 l P). cbv beta in *. eapply fits_room; [exact M| |exact R]. change sz_Curve with 72. pose proof (zlen_nonneg _ l). lia.
Qed.

Lemma patches_room : forall c ascii l t, counted_like (patch_like ascii) l t -> room c (zlen t) ->
  Forall (patch_ok (boundless c) ascii) l -> fits (boundless c) sz_Patch (zlen l) ->
  Forall (patch_ok c ascii) l /\ fits c sz_Patch (zlen l).
Proof.
  intros c ascii l t T R F M. apply (counted_count _ _ (fun k => 8 + zlen (pt_data k))) in T.
  2:{ intros k u H. apply spline_count in H. rewrite !zlen_cons, zlen_nil in H. lia. }
  assert (P : forall k, 8 <= 8 + zlen (pt_data k)) by (intro k; pose proof (zlen_nonneg _ (pt_data k)); lia).
  split.
  - rewrite Forall_forall in *. intros k Hk. destruct (F k Hk) as [X1 X2 X3 X4]. split; try assumption.
    eapply dbl_room; [exact X4| |exact R]. pose proof (fold_member _ (fun k => 8 + zlen (pt_data k)) l k) as Y.
    cbv beta in Y. specialize (Y (fun x => Z.le_trans 0 8 _ ltac:(discriminate) (P x)) Hk). lia.
  - pose proof (fold_least _ _ 8 l P). cbv beta in *. eapply fits_room; [exact M| |exact R]. change sz_Patch with 88. pose proof (zlen_nonneg _ l). lia.
Qed.

Lemma sec_room : forall c ascii p t, sec_text ascii p t -> sec_ok (boundless c) ascii p -> room c (zlen t) -> sec_ok c ascii p.
Proof.
  intros c ascii p t (sep & b & sep' & _ & _ & _ & _ & _ & B & ->) OK R.
  assert (R' : room c (zlen b)).
  { unfold room in *. rewrite !zlen_app in R. pose proof (zlen_nonneg _ (str "$")). pose proof (zlen_nonneg _ (sec_name p)).
    pose proof (zlen_nonneg _ sep). pose proof (zlen_nonneg _ sep'). pose proof (zlen_nonneg _ (str "$End")). lia. }
  clear R. destruct p; cbn [sec_body sec_ok] in *.
  - eapply groups_room; eassumption.
  - eapply entities_room; eassumption.
  - destruct OK. split; [eapply nodes_room; eassumption|assumption].
  - destruct OK. split; [eapply elements_room; eassumption|assumption].
  - destruct OK. split; [eapply data_room; eassumption|assumption].
  - destruct OK. split; [eapply data_room; eassumption|assumption].
  - destruct OK. split; [eapply data_room; eassumption|assumption].
  - exact OK.
  - destruct OK as (N & F & M). split; [exact N|]. eapply curves_room; eassumption.
  - destruct OK as (N & F & M). split; [exact N|]. eapply patches_room; eassumption.
  - exact OK.
Qed.

Lemma room_less : forall c L L', L' <= L -> room c L -> room c L'.
Proof. unfold room. intros. lia. Qed.

Lemma secs_room : forall c ascii ps r, secs_text ascii ps r -> Forall (sec_ok (boundless c) ascii) ps -> room c (zlen r) ->
  Forall (sec_ok c ascii) ps.
Proof.
  intros c ascii ps r H. induction H as [|p ps l t r _ T _ IH]; intros F R; [constructor|].
  rewrite !zlen_app in R. pose proof (zlen_nonneg _ l). pose proof (zlen_nonneg _ t). pose proof (zlen_nonneg _ r).
  constructor; [eapply sec_room; [exact T|exact (Forall_inv F)|]|apply IH; [exact (Forall_inv_tail F)|]]; (eapply room_less; [|exact R]); lia.
Qed.

Lemma file41_room : forall c ascii ps b, Text41.file41 ascii ps b -> Forall (sec_ok (boundless c) ascii) ps -> ample c b ->
  Forall (sec_ok c ascii) ps.
Proof.
  intros c ascii ps b (l & h & r & l' & _ & _ & S & _ & ->) F A. eapply secs_room; [exact S|exact F|].
  unfold ample in A. unfold room. rewrite !zlen_app in A. pose proof (zlen_nonneg _ l). pose proof (zlen_nonneg _ h). pose proof (zlen_nonneg _ l'). lia.
Qed.

(** ** 2.2 files *)

Lemma le_zlen : forall n z, zlen (le n z) = Z.of_nat n.
Proof. intros. unfold zlen. rewrite le_length. reflexivity. Qed.

Lemma ints_zlen : forall l, zlen (ints l) = 4 * zlen l.
Proof.
  intro l. unfold ints. induction l as [|x l IH]; [reflexivity|]. cbn [map List.concat]. rewrite zlen_app, zlen_cons, IH, le_zlen. lia.
Qed.

Lemma rec_bytes_zlen : forall r, zlen (rec_bytes r) = 4 + 4 * zlen (er_tags r) + 4 * zlen (er_nodes r).
Proof. intro r. unfold rec_bytes. rewrite !zlen_app, le_zlen, !ints_zlen. change (Z.of_nat 4) with 4. lia. Qed.

Definition rec_size (r : el_rec) : Z := 2 + zlen (er_tags r) + zlen (er_nodes r).
Definition recs_size (l : list el_rec) : Z := fold_right (fun r n => rec_size r + n) 0 l.

Lemma recs_size_app : forall l l', recs_size (l ++ l') = recs_size l + recs_size l'.
Proof. intros l l'. induction l as [|r l IH]; [reflexivity|]. cbn [recs_size app fold_right] in *. fold (recs_size (l ++ l')). fold (recs_size l). rewrite IH. lia. Qed.

Lemma recs_size_bytes : forall l, recs_size l <= zlen (List.concat (map rec_bytes l)).
Proof.
  intro l. induction l as [|r l IH]; [reflexivity|]. cbn [recs_size fold_right map List.concat]. fold (recs_size l).
  rewrite zlen_app, rec_bytes_zlen. unfold rec_size. pose proof (zlen_nonneg _ (er_tags r)). pose proof (zlen_nonneg _ (er_nodes r)). lia.
Qed.

Lemma part_count : forall ascii p t, part_body ascii p t -> zlen (part_nodes p) <= zlen t /\ recs_size (part_recs p) <= zlen t.
Proof.
  intros ascii p t H. destruct p as [l|l], ascii; cbn [part_body part_nodes part_recs] in *.
  - apply text_count in H. rewrite zlen_cons in H. change (recs_size []) with 0. pose proof (zlen_nonneg _ t).
    assert (4 * zlen l <= zlen (flat_map node22_kinds l)) by (apply pieces_at_least; intro; unfold node22_kinds; rewrite !zlen_cons, zlen_nil; lia).
    pose proof (zlen_nonneg _ l). lia.
  - destruct H as (h & sep & _ & _ & ->). change (recs_size []) with 0. rewrite !zlen_app, concat_map_flat.
    assert (4 * zlen l <= zlen (flat_map node_bytes l)).
    { apply pieces_at_least. intro n. unfold node_bytes. rewrite !zlen_app, !le_zlen. change (Z.of_nat 4) with 4. lia. }
    pose proof (zlen_nonneg _ l). pose proof (zlen_nonneg _ h). pose proof (zlen_nonneg _ sep). lia.
  - apply text_count in H. rewrite zlen_cons in H. rewrite zlen_nil. pose proof (zlen_nonneg _ t). split; [lia|].
    assert (X : recs_size l <= zlen (flat_map rec_kinds l)); [|lia]. rewrite <- fold_pieces. apply fold_up. intro r.
    unfold rec_size, rec_kinds. repeat (rewrite zlen_cons || rewrite zlen_app || rewrite zlen_map). lia.
  - destruct H as (h & bs & sep & _ & _ & -> & _ & _ & ->). rewrite zlen_nil, !zlen_app.
    pose proof (zlen_nonneg _ h). pose proof (zlen_nonneg _ sep).
    assert (X : recs_size (flat_map bl_recs bs) <= zlen (List.concat (map block22_bytes bs))).
    { clear. induction bs as [|b bs IH]; [reflexivity|]. cbn [flat_map map List.concat]. rewrite recs_size_app, zlen_app.
      assert (recs_size (bl_recs b) <= zlen (block22_bytes b)); [|lia].
      unfold block22_bytes. rewrite !zlen_app, !le_zlen. pose proof (recs_size_bytes (bl_recs b)). lia. }
    pose proof (zlen_nonneg _ (List.concat (map block22_bytes bs))). lia.
Qed.

Record sized (ps : list part) (L : Z) : Prop := {
  sz_parts : 2 * zlen ps <= L;
  sz_nodes : Forall (fun p => zlen (part_nodes p) <= L) ps;
  sz_recs : recs_size (all_recs ps) <= L }.

Lemma secs22_sized : forall ascii qs r, secs22_text ascii qs r -> sized (parts_of qs) (zlen r).
Proof.
  intros ascii qs r H. induction H as [|q qs l t r _ T _ [I1 I2 I3]].
  - split; [reflexivity|constructor|reflexivity].
  - rewrite !zlen_app. pose proof (zlen_nonneg _ l). pose proof (zlen_nonneg _ t). pose proof (zlen_nonneg _ r).
    destruct q as [p|p]; cbn [parts_of flat_map app]; fold (parts_of qs).
    + destruct T as (sep & b & sep' & _ & N & _ & N' & B & ->). apply part_count in B. destruct B as [B1 B2].
      rewrite !zlen_app in *. pose proof (some_bytes _ N). pose proof (some_bytes _ N'). pose proof (zlen_nonneg _ b).
      pose proof (zlen_nonneg _ (part_name p)). change (zlen (str "$")) with 1 in *. change (zlen (str "$End")) with 4 in *.
      split.
      * rewrite zlen_cons. lia.
      * constructor; [lia|]. eapply Forall_impl; [|exact I2]. cbn beta. intros; lia.
      * cbn [all_recs flat_map]. fold (all_recs (parts_of qs)). rewrite recs_size_app. lia.
    + split; [lia| |lia]. eapply Forall_impl; [|exact I2]. cbn beta. intros; lia.
Qed.

Lemma extras_room : forall c ascii qs r, secs22_text ascii qs r -> Forall (sec22_ok (boundless c) ascii) qs -> room c (zlen r) ->
  Forall (sec22_ok c ascii) qs.
Proof.
  intros c ascii qs r H. induction H as [|q qs l t r _ T _ IH]; intros F R; [constructor|].
  rewrite !zlen_app in R. pose proof (zlen_nonneg _ l). pose proof (zlen_nonneg _ t). pose proof (zlen_nonneg _ r).
  constructor; [|apply IH; [exact (Forall_inv_tail F)|eapply room_less; [|exact R]; lia]].
  pose proof (Forall_inv F) as Q. destruct q as [p|p]; [exact Q|]. cbn [sec22_ok] in *. destruct T as [_ T].
  eapply sec_room; [exact T|exact Q|]. eapply room_less; [|exact R]. lia.
Qed.

Lemma any22_room : forall c ascii qs b lo hi, any22 ascii qs b -> Forall (sec22_ok (boundless c) ascii) qs ->
  loadable (boundless c) (parts_of qs) lo hi -> ample c b -> 8 * (hi - lo + 1) <= mem c ->
  Forall (sec22_ok c ascii) qs /\ loadable c (parts_of qs) lo hi.
Proof.
  intros c ascii qs b lo hi (l & h & r & l' & _ & _ & S & _ & ->) F [L1 L2 L3 L4 L5 L6 L7 L8 L9] A SP.
  assert (R : room c (zlen r)).
  { unfold ample in A. unfold room. rewrite !zlen_app in A. pose proof (zlen_nonneg _ l). pose proof (zlen_nonneg _ h). pose proof (zlen_nonneg _ l'). lia. }
  split; [eapply extras_room; eassumption|]. destruct (secs22_sized _ _ _ S) as [S1 S2 S3].
  assert (RS : forall x, In x (all_recs (parts_of qs)) -> rec_size x <= zlen r).
  { intros x Hx. eapply Z.le_trans; [|exact S3]. apply (fold_member _ rec_size); [|exact Hx].
    intro y. unfold rec_size. pose proof (zlen_nonneg _ (er_tags y)). pose proof (zlen_nonneg _ (er_nodes y)). lia. }
  assert (RL : 2 * zlen (all_recs (parts_of qs)) <= zlen r).
  { eapply Z.le_trans; [|exact S3]. apply (fold_least _ rec_size).
    intro y. unfold rec_size. pose proof (zlen_nonneg _ (er_tags y)). pose proof (zlen_nonneg _ (er_nodes y)). lia. }
  split; try assumption.
  - destruct L5 as [X _]. split; [exact X|]. change sz_size with 8. lia.
  - eapply fits_room; [exact L6| |exact R]. change sz_NodeBlock with 72. pose proof (zlen_nonneg _ (parts_of qs)). lia.
  - rewrite Forall_forall in *. intros p Hp. eapply fits_room; [exact (L7 p Hp)| |exact R]. change sz_double with 8.
    specialize (S2 p Hp). cbn beta in S2. pose proof (zlen_nonneg _ (part_nodes p)). lia.
  - eapply fits_room; [exact L8| |exact R]. change sz_ElementBlock with 48. pose proof (zlen_nonneg _ (all_recs (parts_of qs))). lia.
  - rewrite Forall_forall in *. intros x Hx. specialize (RS x Hx). unfold rec_size in RS. destruct (L9 x Hx) as [X1 X2].
    pose proof (zlen_nonneg _ (er_tags x)). pose proof (zlen_nonneg _ (er_nodes x)).
    split; (eapply fits_room; [eassumption| |exact R]); change sz_int with 4; lia.
Qed.
