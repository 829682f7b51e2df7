(** What msh_inspect prints. *)

From Verif Require Import Model.Inspect Spec.Report Proofs.BytesP Proofs.RtBase Proofs.WriteP Proofs.Rt22 Proofs.FormatP Proofs.ElemP Proofs.LoadedP Proofs.IntShowP.

Ltac Zify.zify_post_hook ::= idtac.

(** ** Ways to end *)

Definition fine (w : W) : Prop := exists t, w = (t, Ok tt).
Definition fine_or_undef (w : W) : Prop := exists t r, w = (t, r) /\ (r = Ok tt \/ exists u, r = Undef u).

Lemma fine_out : forall b, fine (out b).
Proof. intro b. exists b. reflexivity. Qed.

Lemma fine_wret : fine wret.
Proof. exists []. reflexivity. Qed.

Lemma fine_seq : forall a b, fine (a +++ b) <-> fine a /\ fine b.
Proof.
  intros [x r] [y r']. unfold fine. split.
  - intros (t & E). destruct r as [[]| | | |]; try discriminate. cbn in E. injection E as E1 E2. subst r'. split; eauto.
  - intros ((t & E) & (t' & E')). injection E as <- ->. injection E' as <- ->. eexists. reflexivity.
Qed.

Lemma fine_wfor : forall A (l : list A) f, fine (wfor l f) <-> forall x, In x l -> fine (f x).
Proof.
  intros A l f. induction l as [|x l IH]; cbn [wfor].
  - split; [intros _ x []|intros _; exact fine_wret].
  - rewrite fine_seq, IH. split.
    + intros (H & G) y [<-|I]; auto.
    + intro H. split; [apply H; left; reflexivity|intros y I; apply H; right; exact I].
Qed.

Lemma fine_wlet : forall A (o : outcome A) f, fine (wlet o f) <-> exists a, o = Ok a /\ fine (f a).
Proof.
  intros A o f. split.
  - intros (t & E). destruct o; try discriminate E. exists a. split; [reflexivity|]. exists t. exact E.
  - intros (a & -> & H). exact H.
Qed.

Lemma fou_fine : forall w, fine w -> fine_or_undef w.
Proof. intros w (t & ->). exists t, (Ok tt). auto. Qed.

Lemma fou_out : forall b, fine_or_undef (out b).
Proof. intro b. apply fou_fine, fine_out. Qed.

Lemma fou_seq : forall a b, fine_or_undef a -> fine_or_undef b -> fine_or_undef (a +++ b).
Proof.
  intros a b (x & r & -> & [->|(u & ->)]) (y & r' & -> & H).
  - exists (x ++ y), r'. auto.
  - exists x, (Undef u). eauto.
Qed.

Lemma fou_wfor : forall A (l : list A) f, (forall x, In x l -> fine_or_undef (f x)) -> fine_or_undef (wfor l f).
Proof.
  intros A l f H. induction l as [|x l IH]; cbn [wfor]; [apply fou_fine, fine_wret|].
  apply fou_seq; [apply H; left; reflexivity|apply IH; intros; apply H; right; assumption].
Qed.

Lemma fou_at : forall A (l : list A) i f, (forall x, In x l -> fine_or_undef (f x)) -> fine_or_undef (wlet (at_ l i) f).
Proof.
  intros A l i f H. destruct (Z_lt_le_dec i 0) as [C|C]; [|destruct (Z_lt_le_dec i (zlen l)) as [D|D]].
  - rewrite at_none by lia. exists [], (Undef OutOfBounds). eauto.
  - destruct (at_some _ l i) as (x & E & I); [lia|]. rewrite E. apply H. exact I.
  - rewrite at_none by lia. exists [], (Undef OutOfBounds). eauto.
Qed.

(** ** Texts *)

Lemma out_out : forall a b, out a +++ out b = out (a ++ b).
Proof. reflexivity. Qed.

Lemma out_wret : forall a, out a +++ wret = out a.
Proof. intro a. unfold out, wret, wseq. cbn [fst snd]. rewrite app_nil_r. reflexivity. Qed.

Lemma seq_text : forall a b x y, a = out x -> b = out y -> a +++ b = out (x ++ y).
Proof. intros; subst; reflexivity. Qed.

Lemma wfor_text : forall A (l : list A) f g, (forall x, In x l -> f x = out (g x)) -> wfor l f = out (flat_map g l).
Proof.
  intros A l f g H. rewrite (wfor_ok _ l f g) by exact H. rewrite concat_flat_map. reflexivity.
Qed.

Lemma lines_app : forall l m, lines (l ++ m) = lines l ++ lines m.
Proof. intros. apply flat_map_app. Qed.

Lemma lines_cons : forall x l, lines (x :: l) = (x ++ nl) ++ lines l.
Proof. reflexivity. Qed.

Lemma lines_flat : forall A (f : A -> list bytes) l, lines (flat_map f l) = flat_map (fun x => lines (f x)) l.
Proof. intros. induction l as [|x l IH]; [reflexivity|]. cbn [flat_map]. rewrite lines_app, IH. reflexivity. Qed.

Lemma lines_map : forall A (f : A -> bytes) l, lines (map f l) = flat_map (fun x => f x ++ nl) l.
Proof. intros. unfold lines. rewrite flat_map_map. reflexivity. Qed.

Lemma words_map : forall A (f : A -> bytes) l, words (map f l) = flat_map (fun x => f x ++ str " ") l.
Proof. intros. unfold words. rewrite flat_map_map. reflexivity. Qed.

Lemma say_line : forall x, say x = out (lines [x]).
Proof. intro x. unfold say, lines. cbn [flat_map]. rewrite app_nil_r. reflexivity. Qed.

Lemma say_lines : forall x l, say x +++ out (lines l) = out (lines (x :: l)).
Proof. intros. rewrite say_line, out_out, <- lines_app. reflexivity. Qed.

(** Values on a line, by index. *)
Lemma indexed_words : forall A (show : A -> bytes) l n, n = zlen l ->
  wfor (iota n) (fun i => wlet (at_ l i) (fun x => out (show x ++ str " "))) = out (words (map show l)).
Proof.
  intros A show l n ->. rewrite (iota_at_all _ l (fun x => out (show x ++ str " "))) by reflexivity.
  rewrite words_map. apply wfor_text. reflexivity.
Qed.

Lemma tags_text : forall label l, inspect_tags label l = out (lines (tag_lines label l)).
Proof.
  intros label l. unfold inspect_tags, tag_lines, count_line.
  rewrite (indexed_words _ show_Z l) by reflexivity. destruct l as [|x l].
  - rewrite say_line. change (0 <? zlen []) with false. cbv iota. apply out_wret.
  - replace (0 <? zlen (x :: l)) with true by (symmetry; apply Z.ltb_lt; rewrite zlen_cons; pose proof (zlen_nonneg _ l); lia).
    rewrite say_line. rewrite !out_out. unfold lines. cbn [flat_map]. rewrite !app_nil_r, <- !app_assoc. reflexivity.
Qed.

Lemma point_report : forall p, inspect_point p = out (lines (point_lines p)).
Proof.
  intro p. unfold inspect_point. rewrite tags_text, !say_lines. reflexivity.
Qed.

Lemma out_lines : forall l m, out (lines l) +++ out (lines m) = out (lines (l ++ m)).
Proof. intros. rewrite out_out, <- lines_app. reflexivity. Qed.

Lemma entity_report : forall label b e, label = String.append "  Num boundary " (String.append b ": ") ->
  inspect_entity label e = out (lines (entity_lines b e)).
Proof.
  intros label b e ->. unfold inspect_entity. rewrite !tags_text, out_lines, !say_lines. reflexivity.
Qed.

Lemma wfor_lines : forall A (l : list A) f g, (forall x, In x l -> f x = out (lines (g x))) ->
  wfor l f = out (lines (flat_map g l)).
Proof. intros A l f g H. rewrite lines_flat. apply wfor_text. exact H. Qed.

Lemma entities_report : forall en, inspect_entities en = out (lines (
  [count_line "Num point entities: " (points en)] ++ flat_map point_lines (points en) ++
  [count_line "Num curve entities: " (curves_e en)] ++ flat_map (entity_lines "points") (curves_e en) ++
  [count_line "Num surface entities: " (surfaces_e en)] ++ flat_map (entity_lines "curves") (surfaces_e en) ++
  [count_line "Num volume entities: " (volumes_e en)] ++ flat_map (entity_lines "surfaces") (volumes_e en))).
Proof.
  intro en. unfold inspect_entities.
  rewrite (wfor_lines _ (points en) _ point_lines) by (intros; apply point_report).
  rewrite (wfor_lines _ (curves_e en) _ (entity_lines "points")) by (intros; apply entity_report; reflexivity).
  rewrite (wfor_lines _ (surfaces_e en) _ (entity_lines "curves")) by (intros; apply entity_report; reflexivity).
  rewrite (wfor_lines _ (volumes_e en) _ (entity_lines "surfaces")) by (intros; apply entity_report; reflexivity).
  rewrite !say_lines. rewrite !out_lines, !say_lines, !out_lines, !say_lines, !out_lines, !say_lines. reflexivity.
Qed.

Lemma groups_report : forall l, inspect_groups l =
  out (lines ([count_line "Num physical groups: " l] ++ flat_map group_lines l)).
Proof.
  intro l. unfold inspect_groups. rewrite (wfor_lines _ l _ group_lines); [rewrite say_lines; reflexivity|].
  intros g _. rewrite (say_line (_ ++ quoted _)), !say_lines, quoted_in. reflexivity.
Qed.

Lemma wlet_seq : forall A (o : outcome A) f g, wlet o f +++ g = wlet o (fun a => f a +++ g).
Proof. intros A [] f g; reflexivity. Qed.

Lemma combine_swap : forall A B C (R : A -> C) (l : list A) (t : list B),
  combine t (map R l) = map (fun p => (snd p, R (fst p))) (combine l t).
Proof.
  intros A B C R l. induction l as [|x l IH]; intros [|y t]; cbn [map combine]; try reflexivity. rewrite IH. reflexivity.
Qed.

(** Numbered rows of [w] values. *)
Lemma rows_report : forall (tags : list Z) (data : list dbl) n w, n = zlen tags -> 0 <= w -> zlen data = n * w -> n * w < two64 ->
  wfor (iota n) (fun j =>
    wlet (at_ tags j) (fun t => out (str "    " ++ show_Z t ++ str ": ")) +++
    wfor (iota w) (fun k => wlet (at_ data (to_size (j * w + k))) (fun x => out (show_double x ++ str " "))) +++
    out endl) =
  out (lines (map (fun p => row_line "    " (fst p) (map show_double (snd p)))
                  (combine tags (cut (Z.to_nat w) (Z.to_nat n) data)))).
Proof.
  intros tags data n w Hn Hw HL HB. pose proof (zlen_nonneg _ tags).
  rewrite cut_rows by lia. unfold rows. rewrite combine_swap, map_map, lines_map. cbn [fst snd].
  erewrite wfor_ext.
  2:{ intros j Hj. apply in_iota in Hj. rewrite wlet_seq.
      assert (E : wfor (iota w) (fun k => wlet (at_ data (to_size (j * w + k))) (fun x => out (show_double x ++ str " "))) =
                  out (words (map show_double (row w data j)))).
      { rewrite <- (indexed_words _ show_double (row w data j) w) by (symmetry; eapply row_zlen; eauto).
        apply wfor_ext. intros k Hk. apply in_iota in Hk. rewrite to_size_id by nia. rewrite at_row by lia. reflexivity. }
      rewrite E. reflexivity. }
  rewrite (iota_at _ tags (fun j t => out (str "    " ++ show_Z t ++ str ": ") +++ out (words (map show_double (row w data j))) +++ out endl) n Hn).
  apply wfor_text. intros [j t] _. cbn [fst snd]. rewrite !out_out. unfold row_line. rewrite <- !app_assoc. reflexivity.
Qed.

Lemma node_block_report : forall b, nb_num b = zlen (nb_tags b) -> node_block_plain b ->
  inspect_node_block b = out (lines (node_block_lines b)).
Proof.
  intros b Hn (HP & HL & HB). unfold inspect_node_block, node_block_lines.
  assert (E : node_width b = 3 + nb_parametric b /\ 0 <= nb_parametric b <= 1).
  { unfold node_width. destruct HP as [E|(E & D)]; rewrite E; [cbn; lia|rewrite D; cbn; lia]. }
  destruct E as (E & HR). rewrite <- E.
  replace (INT_MAX <? node_width b) with false by (symmetry; apply Z.ltb_ge; unfold INT_MAX; lia).
  rewrite (to_size_id (node_width b)) by (unfold two64; lia).
  rewrite rows_report by (try assumption; try lia; unfold two64; lia).
  rewrite !say_lines. reflexivity.
Qed.

Lemma nodes_report : forall n, n_num_blocks n = zlen (n_blocks n) ->
  Forall (fun b => nb_num b = zlen (nb_tags b)) (n_blocks n) -> Forall node_block_plain (n_blocks n) ->
  inspect_nodes n = out (lines (
    [str "Num nodes: " ++ show_Z (n_num_nodes n); str "Num node blocks: " ++ show_Z (n_num_blocks n);
     str "min node tag: " ++ show_Z (n_min n); str "max node tag: " ++ show_Z (n_max n)] ++
    flat_map node_block_lines (n_blocks n))).
Proof.
  intros n H N P. rewrite Forall_forall in N, P. unfold inspect_nodes. rewrite iota_at_all by exact H.
  rewrite (wfor_lines _ _ _ node_block_lines) by (intros; apply node_block_report; auto).
  rewrite !say_lines. reflexivity.
Qed.

Lemma gmsh_pos : forall t n, gmsh_nodes t = Some n -> 1 <= n < 100.
Proof.
  intros t n H. apply npe_ok in H. unfold nodes_per_element, assert_supported in H.
  destruct ((t <=? 0) || (32 <=? t)) eqn:E; [discriminate|]. apply orb_false_iff in E. rewrite !Z.leb_gt in E.
  cbn [obind] in H. unfold at_arr in H. destruct (nth_error element_sizes (Z.to_nat t)) as [m|] eqn:G; [|discriminate].
  injection H as <-. destruct (Z.to_nat t) as [|k] eqn:K; [lia|]. cbn [element_sizes nth_error] in G.
  apply nth_error_In in G. cbn [In] in G. repeat destruct G as [<-|G]; try lia; destruct G.
Qed.

Lemma element_block_report : forall b, 0 <= eb_num b -> element_block_plain b ->
  inspect_element_block b = out (lines (element_block_lines b)).
Proof.
  intros b Hn ((n & G & HL) & HB). pose proof (gmsh_pos _ _ G) as N. unfold inspect_element_block, element_block_lines.
  rewrite (proj2 (npe_ok _ _) G). cbn [wlet].
  unfold block_elements. rewrite G, map_map, cut_rows by lia. unfold rows. rewrite map_map.
  rewrite (wfor_text _ (iota (eb_num b)) _
            (fun j => row_line "    " (el_tag (element_of b (row (n + 1) (eb_data b) j)))
                        (map show_Z (el_nodes (element_of b (row (n + 1) (eb_data b) j)))) ++ nl)).
  - rewrite <- lines_map. rewrite !say_lines. reflexivity.
  - intros j Hj. apply in_iota in Hj. set (r := row (n + 1) (eb_data b) j).
    assert (Lr : zlen r = n + 1) by (eapply row_zlen; eauto; lia).
    assert (A : forall k, 0 <= k < n + 1 -> at_ (eb_data b) (to_size (j * (n + 1) + k)) = at_ r k).
    { intros k Hk. rewrite to_size_id by (unfold two64 in *; nia). apply at_row; lia. }
    pose proof (A 0 ltac:(lia)) as A0. rewrite Z.add_0_r in A0. rewrite A0.
    destruct r as [|t ns]; [rewrite zlen_nil in Lr; lia|]. rewrite zlen_cons in Lr.
    cbn [element_of el_tag el_nodes hd tl].
    rewrite (wfor_ext _ (iota n) _ (fun k => wlet (at_ ns k) (fun x => out (show_Z x ++ str " ")))).
    + rewrite (indexed_words _ show_Z ns) by lia. change (at_ (t :: ns) 0) with (Ok t). cbn [wlet].
      rewrite !out_out. unfold row_line. rewrite <- !app_assoc. reflexivity.
    + intros k Hk. apply in_iota in Hk. cbv zeta. rewrite A by lia. f_equal.
      unfold at_. replace (k + 1 <? 0) with false by (symmetry; apply Z.ltb_ge; lia).
      replace (k <? 0) with false by (symmetry; apply Z.ltb_ge; lia).
      replace (Z.to_nat (k + 1)) with (S (Z.to_nat k)) by lia. reflexivity.
Qed.

Lemma elements_report : forall e, e_num_blocks e = zlen (e_blocks e) ->
  Forall (fun b => 0 <= eb_num b) (e_blocks e) -> Forall element_block_plain (e_blocks e) ->
  inspect_elements e = out (lines (
    [str "Num elements: " ++ show_Z (e_num_elements e); str "Num element blocks: " ++ show_Z (e_num_blocks e);
     str "min element tag: " ++ show_Z (e_min e); str "max element tag: " ++ show_Z (e_max e)] ++
    flat_map element_block_lines (e_blocks e))).
Proof.
  intros e H N P. rewrite Forall_forall in N, P. unfold inspect_elements. rewrite iota_at_all by exact H.
  rewrite (wfor_lines _ _ _ element_block_lines) by (intros; apply element_block_report; auto).
  rewrite !say_lines. reflexivity.
Qed.

Lemma wfor_words : forall A (show : A -> bytes) l, wfor l (fun x => out (show x ++ str " ")) = out (words (map show l)).
Proof. intros. rewrite words_map. apply wfor_text. reflexivity. Qed.

Lemma words_line : forall x, out x +++ out endl = out (lines [x]).
Proof. intro x. rewrite out_out. unfold lines. cbn [flat_map]. rewrite app_nil_r. reflexivity. Qed.

Lemma seq_assoc : forall a b c, (a +++ b) +++ c = a +++ (b +++ c).
Proof.
  intros [x [[]| | | |]] [y r] [z q]; try reflexivity. unfold wseq. destruct r as [[]| | | |]; rewrite <- ?app_assoc; reflexivity.
Qed.

Lemma data_tags_shown : forall l, Forall (fun t => -1000000 < t < 1000000) l ->
  wfor l (fun t => out (show_double (dbl_of_int t) ++ str " ")) = out (words (map show_Z l)).
Proof.
  intros l F. rewrite Forall_forall in F. rewrite words_map. apply wfor_text. intros t I. rewrite show_double_int by auto. reflexivity.
Qed.

Lemma entries_report : forall l f, Forall (fun e => zlen (de_data e) = f mod 2 ^ 64) l ->
  wfor l (fun e => out (str "  " ++ show_Z (de_tag e) ++ str ": ") +++
    wfor (iota (to_size f)) (fun j => wlet (at_ (de_data e) j) (fun x => out (show_double x ++ str " "))) +++
    out endl) = out (lines (map (fun e => row_line "  " (de_tag e) (map show_double (de_data e))) l)).
Proof.
  intros l f F. rewrite Forall_forall in F. rewrite lines_map. apply wfor_text. intros e I.
  rewrite (indexed_words _ show_double) by (symmetry; rewrite F by exact I; reflexivity).
  rewrite !out_out. unfold row_line. rewrite <- !app_assoc. reflexivity.
Qed.

Lemma words_line_k : forall x k, out x +++ out endl +++ k = out (lines [x]) +++ k.
Proof. intros. rewrite <- words_line, seq_assoc. reflexivity. Qed.

Lemma data_report : forall d, data_loaded false d -> tags_plain d -> print_data d = out (lines (data_lines d)).
Proof.
  intros d (st & f & n & more & E & L & F) T. unfold print_data, data_lines. cbv zeta. unfold tags_plain in T.
  rewrite (wfor_words _ quoted), (wfor_words _ show_double), data_tags_shown by exact T.
  assert (A1 : at_ (int_tags (d_header d)) 1 = Ok f) by (rewrite E; reflexivity).
  assert (A2 : at_ (int_tags (d_header d)) 2 = Ok n) by (rewrite E; reflexivity).
  rewrite A1. cbn [wlet]. rewrite A2. cbn [wlet].
  rewrite iota_at_all by (symmetry; exact L). rewrite entries_report by exact F.
  rewrite !words_line_k, !say_line, !out_lines. cbn [app].
  rewrite (map_ext quoted in_quotes) by (intro; apply quoted_in). reflexivity.
Qed.

Lemma inspect_data_report : forall label l, Forall (data_loaded false) l -> Forall tags_plain l ->
  inspect_data label l = out (lines (headed label l)).
Proof.
  intros label l D T. rewrite Forall_forall in D, T. unfold inspect_data, headed. destruct l as [|x l]; [reflexivity|].
  replace (0 <? zlen (x :: l)) with true by (symmetry; apply Z.ltb_lt; rewrite zlen_cons; pose proof (zlen_nonneg _ l); lia).
  rewrite (wfor_lines _ (x :: l) _ data_lines) by (intros; apply data_report; auto). apply say_lines.
Qed.

(** Counts as of anything loaded, whatever the version. *)
Record sized (s : MshSpec) : Prop := {
  sz_node_blocks : n_num_blocks (nodes s) = zlen (n_blocks (nodes s));
  sz_node_all : Forall (fun b => nb_num b = zlen (nb_tags b)) (n_blocks (nodes s));
  sz_element_blocks : e_num_blocks (elements s) = zlen (e_blocks (elements s));
  sz_element_all : Forall (fun b => 0 <= eb_num b /\ exists n, gmsh_nodes (eb_type b) = Some n) (e_blocks (elements s));
  sz_node_data : Forall (data_loaded false) (node_data s);
  sz_element_data : Forall (data_loaded false) (element_data s) }.

Lemma sized_loaded : forall s, loaded s -> sized s.
Proof.
  intros s L. split; try apply L.
  - eapply Forall_impl; [|apply L]. intros b N. symmetry. apply N.
  - eapply Forall_impl; [|apply L]. intros b N. split; [apply N|]. destruct (el_l_data _ N) as (n & G & _). eauto.
Qed.

Lemma inspect_report : forall s, sized s ->
  Forall node_block_plain (n_blocks (nodes s)) -> Forall element_block_plain (e_blocks (elements s)) ->
  Forall tags_plain (node_data s) -> Forall tags_plain (element_data s) ->
  inspect s = out (report s).
Proof.
  intros s L HN HE TN TE. unfold inspect.
  rewrite entities_report, groups_report.
  rewrite nodes_report by (try apply L; assumption).
  rewrite elements_report; [|apply L|eapply Forall_impl; [|apply L]; intros b (X & _); exact X|assumption].
  rewrite !inspect_data_report by (try apply L; assumption).
  rewrite !out_lines, !say_lines, <- !app_assoc. reflexivity.
Qed.

(** ** Staying inside the vectors *)

Lemma fine_at : forall A (l : list A) i (f : A -> bytes), fine (wlet (at_ l i) (fun x => out (f x))) <-> 0 <= i < zlen l.
Proof.
  intros A l i f. rewrite fine_wlet. split.
  - intros (a & E & _). destruct (Z_lt_le_dec i 0); [rewrite at_none in E by lia; discriminate|].
    destruct (Z_lt_le_dec i (zlen l)); [lia|rewrite at_none in E by lia; discriminate].
  - intro H. destruct (at_some _ l i H) as (x & E & _). exists x. split; [exact E|apply fine_out].
Qed.

Lemma fine_say : forall x, fine (say x).
Proof. intro x. apply fine_out. Qed.

Lemma fine_texts : forall x t, x = out t -> fine x.
Proof. intros x t ->. apply fine_out. Qed.

(** Rows of [w] values, by computed index. *)
Lemma rows_inside : forall n w m, 0 <= n -> 0 <= w -> 0 <= m < two64 ->
  (forall j k, 0 <= j < n -> 0 <= k < w -> 0 <= to_size (j * w + k) < m) <-> n * w <= m.
Proof.
  intros n w m Hn Hw Hm. split.
  - intro H. apply Z.nlt_ge. intro C. assert (W : 0 < w) by nia.
    pose proof (Z.div_mod m w ltac:(lia)) as D. pose proof (Z.mod_pos_bound m w W) as B.
    assert (J : 0 <= m / w < n) by (split; [apply Z.div_pos; lia|apply Z.div_lt_upper_bound; lia]).
    specialize (H (m / w) (m mod w) J B). replace (m / w * w + m mod w) with m in H by lia. rewrite to_size_id in H by lia. lia.
  - intros H j k Hj Hk. rewrite to_size_id by (unfold two64 in *; nia). nia.
Qed.

Lemma node_block_fine : forall b, int_ok (nb_parametric b) -> nb_num b = zlen (nb_tags b) -> zlen (nb_data b) < two64 ->
  fine (inspect_node_block b) <-> node_block_readable b.
Proof.
  intros b HP Hn HD. pose proof (zlen_nonneg _ (nb_tags b)) as Hz. pose proof (zlen_nonneg _ (nb_data b)) as Hd.
  unfold inspect_node_block, node_block_readable.
  rewrite !fine_seq, fine_wfor. change (2 ^ 64) with two64. fold (to_size (3 + nb_parametric b)). pose proof (to_size_range (3 + nb_parametric b)) as RW. set (w := to_size (3 + nb_parametric b)) in *.
  split.
  - intros (_ & _ & _ & _ & H). destruct (Z.eq_dec (nb_num b) 0) as [E|E]; [left; exact E|right].
    destruct (INT_MAX <? 3 + nb_parametric b) eqn:O.
    + specialize (H 0 ltac:(apply in_iota; lia)). rewrite !fine_seq in H. destruct H as (_ & (t & C) & _). discriminate.
    + apply Z.ltb_ge in O. split; [unfold INT_MAX in O; lia|].
      apply (rows_inside (nb_num b) w (zlen (nb_data b))); [lia|lia|lia|]. intros j k Hj Hk.
      specialize (H j ltac:(apply in_iota; lia)). rewrite !fine_seq, fine_wfor in H. destruct H as (_ & H & _).
      specialize (H k ltac:(apply in_iota; lia)). apply fine_at in H. exact H.
  - intro H. repeat (split; [apply fine_say|]). intros j Hj. apply in_iota in Hj.
    destruct H as [H|(O & H)]; [lia|].
    replace (INT_MAX <? 3 + nb_parametric b) with false by (symmetry; apply Z.ltb_ge; unfold INT_MAX; lia).
    rewrite !fine_seq, fine_at, fine_wfor. split; [lia|]. split; [|apply fine_out]. intros k Hk. apply in_iota in Hk.
    apply fine_at. apply (rows_inside (nb_num b) w (zlen (nb_data b))); lia.
Qed.

Lemma element_block_fine : forall b, (exists n, gmsh_nodes (eb_type b) = Some n) -> 0 <= eb_num b -> zlen (eb_data b) < two64 ->
  fine (inspect_element_block b) <-> element_block_readable b.
Proof.
  intros b (n & G) Hn HD. pose proof (zlen_nonneg _ (eb_data b)) as Hd. pose proof (gmsh_pos _ _ G) as N.
  unfold inspect_element_block, element_block_readable. rewrite (proj2 (npe_ok _ _) G). cbn [wlet].
  rewrite !fine_seq, fine_wfor. split.
  - intros (_ & _ & _ & _ & H). exists n. split; [exact G|].
    apply (rows_inside (eb_num b) (n + 1) (zlen (eb_data b))); [lia|lia|lia|]. intros j k Hj Hk.
    specialize (H j ltac:(apply in_iota; lia)). rewrite !fine_seq, fine_wfor, fine_at in H. destruct H as (H0 & H & _).
    destruct (Z.eq_dec k 0) as [->|K]; [rewrite Z.add_0_r; exact H0|].
    specialize (H (k - 1) ltac:(apply in_iota; lia)). cbv zeta in H. apply fine_at in H.
    replace (k - 1 + 1) with k in H by lia. exact H.
  - intros (n' & G' & H). rewrite G in G'. injection G' as <-. repeat (split; [apply fine_say|]).
    intros j Hj. apply in_iota in Hj. pose proof (rows_inside (eb_num b) (n + 1) (zlen (eb_data b)) Hn ltac:(lia) ltac:(lia)) as (_ & R).
    specialize (R H j). rewrite !fine_seq, fine_wfor, fine_at. split; [rewrite <- (Z.add_0_r (j * (n + 1))); apply R; lia|].
    split; [|apply fine_out]. intros k Hk. apply in_iota in Hk. cbv zeta. apply fine_at. apply R; lia.
Qed.

Lemma fine_blocks : forall A (l : list A) n (f : A -> W), n = zlen l ->
  fine (wfor (iota n) (fun i => wlet (at_ l i) f)) <-> forall x, In x l -> fine (f x).
Proof. intros A l n f H. rewrite iota_at_all by exact H. apply fine_wfor. Qed.

Lemma data_fine : forall d, data_loaded false d -> fine (print_data d).
Proof.
  intros d (st & f & n & more & E & L & F). unfold print_data. cbv zeta.
  assert (A1 : at_ (int_tags (d_header d)) 1 = Ok f) by (rewrite E; reflexivity).
  assert (A2 : at_ (int_tags (d_header d)) 2 = Ok n) by (rewrite E; reflexivity).
  rewrite A1. cbn [wlet]. rewrite A2. cbn [wlet]. rewrite !fine_seq.
  assert (W : forall A (l : list A) (g : A -> bytes), fine (wfor l (fun x => out (g x)))) by (intros; apply fine_wfor; intros; apply fine_out).
  repeat (split; [first [apply fine_say|apply fine_out|apply W]|]).
  rewrite iota_at_all by (symmetry; exact L). rewrite entries_report by exact F. apply fine_out.
Qed.

Lemma inspect_data_fine : forall label l, Forall (data_loaded false) l -> fine (inspect_data label l).
Proof.
  intros label l D. rewrite Forall_forall in D. unfold inspect_data. destruct (0 <? zlen l); [|apply fine_wret].
  apply fine_seq. split; [apply fine_say|]. apply fine_wfor. intros. apply data_fine. auto.
Qed.

(** Vectors have at most 2^64 - 1 members. *)
Definition bounded (s : MshSpec) : Prop :=
  Forall (fun b => int_ok (nb_parametric b) /\ zlen (nb_data b) < two64) (n_blocks (nodes s)) /\
  Forall (fun b => zlen (eb_data b) < two64) (e_blocks (elements s)).

Lemma bounded_loaded : forall s, loaded s -> bounded s.
Proof.
  intros s L. split; (eapply Forall_impl; [|apply L]); intros b N.
  - split; [apply N|]. rewrite (nl_data _ N). apply Z.mod_pos_bound. reflexivity.
  - destruct (el_l_data _ N) as (n & _ & E). rewrite E. apply Z.mod_pos_bound. reflexivity.
Qed.

Lemma inspect_fine : forall s, sized s -> bounded s ->
  fine (inspect s) <-> Forall node_block_readable (n_blocks (nodes s)) /\ Forall element_block_readable (e_blocks (elements s)).
Proof.
  intros s L (B1 & B2). unfold inspect. rewrite entities_report, groups_report. rewrite !fine_seq.
  unfold inspect_nodes, inspect_elements. rewrite !fine_seq.
  rewrite (fine_blocks _ _ _ _ (sz_node_blocks _ L)), (fine_blocks _ _ _ _ (sz_element_blocks _ L)).
  pose proof (sz_node_all _ L) as SN. pose proof (sz_element_all _ L) as SE.
  pose proof (inspect_data_fine "Node data: " _ (sz_node_data _ L)) as F1.
  pose proof (inspect_data_fine "Element data: " _ (sz_element_data _ L)) as F2.
  rewrite Forall_forall in SN, SE, B1, B2. rewrite !Forall_forall. split.
  - intros (_ & _ & _ & _ & _ & (_ & _ & _ & _ & N) & (_ & _ & _ & _ & E) & _). split.
    + intros b I. apply node_block_fine; [apply B1, I|apply SN, I|apply B1, I|apply N, I].
    + intros b I. apply element_block_fine; [apply SE, I|apply SE, I|apply B2, I|apply E, I].
  - intros (N & E). repeat first [split | apply fine_say | apply fine_out | assumption].
    + intros b I. apply node_block_fine; [apply B1, I|apply SN, I|apply B1, I|apply N, I].
    + intros b I. apply element_block_fine; [apply SE, I|apply SE, I|apply B2, I|apply E, I].
Qed.

Lemma fou_say : forall x, fine_or_undef (say x).
Proof. intro. apply fou_out. Qed.

Lemma node_block_ends : forall b, fine_or_undef (inspect_node_block b).
Proof.
  intro b. unfold inspect_node_block. repeat (apply fou_seq; [apply fou_say|]). apply fou_wfor. intros j _.
  apply fou_seq; [apply fou_at; intros; apply fou_out|]. apply fou_seq; [|apply fou_out].
  destruct (INT_MAX <? 3 + nb_parametric b); [exists [], (Undef SignedOverflow); eauto|].
  apply fou_wfor. intros k _. apply fou_at. intros. apply fou_out.
Qed.

Lemma element_block_ends : forall b, (exists n, gmsh_nodes (eb_type b) = Some n) -> fine_or_undef (inspect_element_block b).
Proof.
  intros b (n & G). unfold inspect_element_block. repeat (apply fou_seq; [apply fou_say|]).
  rewrite (proj2 (npe_ok _ _) G). cbn [wlet]. apply fou_wfor. intros j _.
  apply fou_seq; [apply fou_at; intros; apply fou_out|]. apply fou_seq; [|apply fou_out].
  apply fou_wfor. intros k _. cbv zeta. apply fou_at. intros. apply fou_out.
Qed.

Lemma inspect_ends : forall s, sized s -> fine_or_undef (inspect s).
Proof.
  intros s L. unfold inspect. rewrite entities_report, groups_report.
  repeat (apply fou_seq; [first [apply fou_say|apply fou_out]|]).
  unfold inspect_nodes, inspect_elements. rewrite (iota_at_all _ _ _ _ (sz_node_blocks _ L)), (iota_at_all _ _ _ _ (sz_element_blocks _ L)).
  pose proof (sz_element_all _ L) as SE. rewrite Forall_forall in SE.
  apply fou_seq; [|apply fou_seq; [|apply fou_seq]].
  - repeat (apply fou_seq; [apply fou_say|]). apply fou_wfor. intros b _. apply node_block_ends.
  - repeat (apply fou_seq; [apply fou_say|]). apply fou_wfor. intros b I. apply element_block_ends, SE, I.
  - apply fou_fine, inspect_data_fine, L.
  - apply fou_fine, inspect_data_fine, L.
Qed.

(** Readable blocks are printed also beyond 2^64 members. *)
Lemma rows_inside_le : forall n w m, 0 <= n -> 0 <= w -> n * w <= m ->
  forall j k, 0 <= j < n -> 0 <= k < w -> 0 <= to_size (j * w + k) < m.
Proof.
  intros n w m Hn Hw H j k Hj Hk. pose proof (to_size_range (j * w + k)).
  assert (to_size (j * w + k) <= j * w + k) by (apply Z.mod_le; [nia|reflexivity]). nia.
Qed.

Lemma node_block_readable_fine : forall b, nb_num b = zlen (nb_tags b) -> node_block_readable b -> fine (inspect_node_block b).
Proof.
  intros b Hn H. pose proof (zlen_nonneg _ (nb_tags b)) as Hz.
  unfold inspect_node_block, node_block_readable in *. change (2 ^ 64) with two64 in H. fold (to_size (3 + nb_parametric b)) in H.
  pose proof (to_size_range (3 + nb_parametric b)) as RW. set (w := to_size (3 + nb_parametric b)) in *.
  rewrite !fine_seq, fine_wfor. repeat (split; [apply fine_say|]). intros j Hj. apply in_iota in Hj.
  destruct H as [H|(O & H)]; [lia|].
  replace (INT_MAX <? 3 + nb_parametric b) with false by (symmetry; apply Z.ltb_ge; unfold INT_MAX; lia).
  rewrite !fine_seq, fine_at, fine_wfor. split; [lia|]. split; [|apply fine_out]. intros k Hk. apply in_iota in Hk.
  apply fine_at. apply (rows_inside_le (nb_num b) w); lia.
Qed.

Lemma element_block_readable_fine : forall b, 0 <= eb_num b -> element_block_readable b -> fine (inspect_element_block b).
Proof.
  intros b Hn (n & G & H). pose proof (gmsh_pos _ _ G) as N.
  unfold inspect_element_block. rewrite (proj2 (npe_ok _ _) G). cbn [wlet].
  rewrite !fine_seq, fine_wfor. repeat (split; [apply fine_say|]).
  intros j Hj. apply in_iota in Hj. pose proof (rows_inside_le (eb_num b) (n + 1) (zlen (eb_data b)) Hn ltac:(lia) H j) as R.
  rewrite !fine_seq, fine_wfor, fine_at. split; [rewrite <- (Z.add_0_r (j * (n + 1))); apply R; lia|].
  split; [|apply fine_out]. intros k Hk. apply in_iota in Hk. cbv zeta. apply fine_at. apply R; lia.
Qed.

Lemma inspect_readable : forall s, sized s -> Forall node_block_readable (n_blocks (nodes s)) ->
  Forall element_block_readable (e_blocks (elements s)) -> fine (inspect s).
Proof.
  intros s L N E. unfold inspect. rewrite entities_report, groups_report. rewrite !fine_seq.
  unfold inspect_nodes, inspect_elements. rewrite !fine_seq.
  rewrite (fine_blocks _ _ _ _ (sz_node_blocks _ L)), (fine_blocks _ _ _ _ (sz_element_blocks _ L)).
  pose proof (sz_node_all _ L) as SN. pose proof (sz_element_all _ L) as SE.
  pose proof (inspect_data_fine "Node data: " _ (sz_node_data _ L)) as F1.
  pose proof (inspect_data_fine "Element data: " _ (sz_element_data _ L)) as F2.
  rewrite Forall_forall in SN, SE, N, E. repeat first [split | apply fine_say | apply fine_out | assumption].
  - intros b I. apply node_block_readable_fine; auto.
  - intros b I. apply element_block_readable_fine; [apply SE, I|auto].
Qed.
