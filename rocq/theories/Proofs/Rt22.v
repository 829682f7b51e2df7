(** Saving and loading a spec as version 2.2. *)

From Verif Require Import Model.Save Spec.Consistent22 Spec.Text22 Proofs.BytesP Proofs.RtBase Proofs.ShowP
  Proofs.WriteP Proofs.RtStep Proofs.Rt41A Proofs.Rt41B Proofs.Compose Proofs.Rt41 Proofs.ElemP Proofs.PostP Proofs.Load22P
  Proofs.File22P Proofs.EntP Proofs.RoundP Proofs.Text22P.

Ltac Zify.zify_post_hook ::= idtac.

(** ** Lists *)

Lemma at_nth : forall A (l : list A) d i, 0 <= i < zlen l -> at_ l i = Ok (nth (Z.to_nat i) l d).
Proof.
  intros A l d i H. unfold at_. replace (i <? 0) with false by (symmetry; apply Z.ltb_ge; lia).
  rewrite (nth_error_nth' l d); [reflexivity|]. unfold zlen in H. lia.
Qed.

Lemma wfor_nth : forall A (l : list A) d (f : A -> W) F n, n = zlen l ->
  (forall j, 0 <= j < n -> F j = f (nth (Z.to_nat j) l d)) -> wfor (iota n) F = wfor l f.
Proof.
  intros A l d f F n Hn H. rewrite <- (iota_at_all A l f n Hn). apply wfor_ext. intros j Hj.
  apply in_iota in Hj. rewrite (H j Hj), (at_nth _ l d) by lia. reflexivity.
Qed.

Lemma nth_skip : forall A (l : list A) k i d, nth i (skipn k l) d = nth (k + i) l d.
Proof.
  intros A l k. revert l. induction k as [|k IH]; intros l i d; [reflexivity|].
  destruct l as [|x l]; [destruct i; reflexivity|]. cbn [skipn Nat.add nth]. apply IH.
Qed.

Lemma nodes_of_length : forall w tags data, List.length (nodes_of w tags data) = List.length tags.
Proof. induction tags as [|t tags IH]; intro data; [reflexivity|]. cbn [nodes_of List.length]. rewrite IH. reflexivity. Qed.

Lemma nodes_of_nth : forall w tags data j dn, (j < List.length tags)%nat ->
  nth j (nodes_of w tags data) dn =
  {| n_tag := nth j tags 0; n_x := nth (j * w) data 0; n_y := nth (j * w + 1) data 0;
     n_z := nth (j * w + 2) data 0 |}.
Proof.
  intros w tags. induction tags as [|t tags IH]; intros data j dn H; [cbn [List.length] in H; lia|].
  destruct j as [|j]; [reflexivity|]. cbn [nodes_of nth]. cbn [List.length] in H.
  rewrite IH by lia. rewrite !nth_skip. cbn [Nat.mul]. rewrite <- !Nat.add_assoc. reflexivity.
Qed.

Lemma block_nodes_zlen : forall b, zlen (block_nodes b) = zlen (nb_tags b).
Proof. intro b. unfold zlen, block_nodes. rewrite nodes_of_length. reflexivity. Qed.

Lemma cut_rows : forall (l : list Z) n w, 0 <= n -> 0 <= w -> cut (Z.to_nat w) (Z.to_nat n) l = rows n w l.
Proof.
  intros l n w Hn Hw. unfold rows, iota. rewrite map_map.
  assert (G : forall m k (d : list Z), cut (Z.to_nat w) m (skipn (k * Z.to_nat w) d) =
              map (fun x => row w d (Z.of_nat x)) (seq k m)).
  { induction m as [|m IH]; intros k d; [reflexivity|]. cbn [cut seq map]. f_equal.
    - unfold row. rewrite Z2Nat.inj_mul by lia. rewrite Nat2Z.id. reflexivity.
    - rewrite skipn_skip. rewrite Nat.add_comm. change (Z.to_nat w + k * Z.to_nat w)%nat with (S k * Z.to_nat w)%nat. apply IH. }
  exact (G (Z.to_nat n) O l).
Qed.

(** ** Writing nodes *)

(** Finite doubles are read back as finite doubles. *)
Class stays_finite (back : rounder) : Prop := staying : forall x, dbl_ok true x -> dbl_ok true (back x).

#[global] Instance stays_finite_six : stays_finite ascii_round.
Proof.
  intros x [H1 H2]. destruct (ascii_round_six x H1 (H2 eq_refl)) as (_ & d & k & _ & H3 & H4 & _). split; auto.
Qed.

Section Printed.
Context {print : printer} {back : rounder} {RBK : reads_back print back} {STF : stays_finite back}.

Definition node_line (n : node) : bytes :=
  show_Z (n_tag n) ++ sp ++ print (n_x n) ++ sp ++ print (n_y n) ++ sp ++ print (n_z n) ++ endl.

Lemma width_ok : forall c a b, node_block_saves c a b ->
  entries_per_node (nb_parametric b) (nb_dim b) = Ok (node_width b) /\
  zlen (block_nodes b) = nb_num b /\ nb_num b * node_width b < two64 /\ 0 <= nb_num b.
Proof.
  intros c a b [H1 H2 H3 H4 H5 [H6 _]]. change sz_double with 8 in H6. rewrite PD8 in H6.
  pose proof (zlen_nonneg _ (nb_tags b)).
  split; [|rewrite block_nodes_zlen, <- H1; unfold two64; lia].
  unfold entries_per_node, node_width in *. destruct (nb_parametric b =? 1); [|reflexivity].
  replace (INT_MAX <? 3 + nb_dim b) with false by (symmetry; apply Z.ltb_ge; lia).
  rewrite to_size_id by (unfold INT_MAX, two64 in *; lia). reflexivity.
Qed.

(** The three coordinates are where the writers look for them. *)
Lemma node_at : forall c a b j dn, node_block_saves c a b -> 0 <= j < nb_num b ->
  let n := nth (Z.to_nat j) (block_nodes b) dn in let w := node_width b in
  at_ (nb_tags b) j = Ok (n_tag n) /\ at_ (nb_data b) (to_size (j * w)) = Ok (n_x n) /\
  at_ (nb_data b) (to_size (j * w + 1)) = Ok (n_y n) /\ at_ (nb_data b) (to_size (j * w + 2)) = Ok (n_z n) /\
  at_ (nb_data b) (to_size (j * w) + 1) = Ok (n_y n) /\ at_ (nb_data b) (to_size (j * w) + 2) = Ok (n_z n).
Proof.
  intros c a b j dn H Hj. cbv zeta. destruct (width_ok c a b H) as (_ & _ & B & _). destruct H as [H1 H2 H3 H4 H5 H6].
  unfold block_nodes. rewrite nodes_of_nth by (unfold zlen in H1; lia). cbn [n_tag n_x n_y n_z].
  set (w := node_width b) in *. unfold dbl in *.
  assert (R : 0 <= j * w /\ j * w + 2 < zlen (nb_data b)) by (unfold dbl in *; rewrite H4; nia).
  assert (Q : zlen (nb_data b) < two64) by (unfold dbl in *; rewrite H4; exact B).
  assert (X : forall k, 0 <= k <= 2 -> at_ (nb_data b) (j * w + k) =
                Ok (nth (Z.to_nat j * Z.to_nat w + Z.to_nat k) (nb_data b) 0)).
  { intros k Hk. rewrite (at_nth dbl _ 0) by lia. f_equal. f_equal. rewrite Z2Nat.inj_add, Z2Nat.inj_mul by lia. reflexivity. }
  pose proof (X 0 ltac:(lia)) as X0. pose proof (X 1 ltac:(lia)) as X1. pose proof (X 2 ltac:(lia)) as X2.
  change (Z.to_nat 0) with 0%nat in X0. change (Z.to_nat 1) with 1%nat in X1. change (Z.to_nat 2) with 2%nat in X2.
  rewrite Z.add_0_r, Nat.add_0_r in X0.
  rewrite !to_size_id by lia. rewrite (at_nth _ (nb_tags b) 0) by lia. repeat split; assumption.
Qed.

Definition node0 : node := {| n_tag := 0; n_x := 0; n_y := 0; n_z := 0 |}.

Lemma save_node_block_22a : forall c a b, node_block_saves c a b ->
  v22_save_node_block_ascii b = (List.concat (map node_line (block_nodes b)), Ok tt).
Proof.
  intros c a b H. destruct (width_ok c a b H) as (W1 & W2 & W3 & W4). unfold v22_save_node_block_ascii.
  eapply wlet_ok; [exact W1|]. rewrite (wfor_nth _ (block_nodes b) node0 (fun n => out (node_line n))).
  - apply wfor_ok. intros; reflexivity.
  - symmetry. exact W2.
  - intros j Hj. destruct (node_at c a b j node0 H Hj) as (E1 & E2 & E3 & E4 & _). rewrite E1, E2, E3, E4.
    cbn [wlet]. unfold node_line. generalize (nth (Z.to_nat j) (block_nodes b) node0). intro n.
    cbn [out wseq fst snd]. rewrite <- !app_assoc. reflexivity.
Qed.

Lemma save_node_block_22b : forall c a b, node_block_saves c a b ->
  v22_save_node_block_binary b = (List.concat (map node_bytes (block_nodes b)), Ok tt).
Proof.
  intros c a b H. destruct (width_ok c a b H) as (W1 & W2 & W3 & W4). unfold v22_save_node_block_binary.
  eapply wlet_ok; [exact W1|]. rewrite (wfor_nth _ (block_nodes b) node0 (fun n => out (node_bytes n))).
  - apply wfor_ok. intros; reflexivity.
  - symmetry. exact W2.
  - intros j Hj. destruct (node_at c a b j node0 H Hj) as (E1 & E2 & _ & _ & E3 & E4). rewrite E1, E2, E3, E4.
    cbn [wlet]. reflexivity.
Qed.

Lemma concat_flat : forall A B (f : A -> list B) (g : B -> bytes) l,
  List.concat (map (fun x => List.concat (map g (f x))) l) = List.concat (map g (flat_map f l)).
Proof.
  intros A B f g l. induction l as [|x l IH]; [reflexivity|].
  cbn [map List.concat flat_map]. rewrite map_app, concat_app, IH. reflexivity.
Qed.

Lemma save_nodes_22 : forall c a n, nodes_save c a n ->
  (if a then v22_save_nodes_ascii n else v22_save_nodes_binary n) =
  (show_Z (n_num_nodes n) ++ endl ++ List.concat (map (if a then node_line else node_bytes) (mesh_nodes n)), Ok tt).
Proof.
  intros c a n [N1 N2 N3 N4]. rewrite Forall_forall in N2. unfold mesh_nodes. rewrite <- concat_flat.
  destruct a; [unfold v22_save_nodes_ascii|unfold v22_save_nodes_binary];
    (erewrite wseq_ok; [|apply out_ok|rewrite iota_at_all by exact N1; apply wfor_ok; intros b Hb];
     [rewrite <- app_assoc; reflexivity|]).
  - apply (save_node_block_22a c true). auto.
  - apply (save_node_block_22b c false). auto.
Qed.

(** ** Reading nodes *)

Definition node_fine (a : bool) (n : node) : Prop :=
  size_ok (n_tag n) /\ dbl_ok a (n_x n) /\ dbl_ok a (n_y n) /\ dbl_ok a (n_z n).

Lemma saved_nodes_fine : forall c a n, nodes_save c a n -> Forall (node_fine a) (mesh_nodes n).
Proof.
  intros c a n [_ N2 _ _]. unfold mesh_nodes. rewrite Forall_forall in *. intros x Hx.
  apply in_flat_map in Hx. destruct Hx as (b & Hb & Hx). specialize (N2 b Hb).
  destruct (width_ok c a b N2) as (_ & W2 & _).
  apply (In_nth _ _ node0) in Hx. destruct Hx as (j & Hj & <-).
  destruct (node_at c a b (Z.of_nat j) node0 N2) as (E1 & E2 & E3 & E4 & _); [unfold zlen in W2; lia|].
  rewrite Nat2Z.id in *. destruct N2 as [_ T _ _ V _]. rewrite Forall_forall in T, V.
  assert (AI : forall A (l : list A) i x, at_ l i = Ok x -> In x l).
  { intros A l i y H. unfold at_ in H. destruct (i <? 0); [discriminate|].
    destruct (nth_error l (Z.to_nat i)) eqn:E; [|discriminate]. injection H as ->. eapply nth_error_In; exact E. }
  repeat split; try (apply V; eapply AI; eassumption); apply T; eapply AI; eassumption.
Qed.

Lemma finite_round : forall x, dbl_ok true x -> denotes (print x) (back x).
Proof. intros x [H1 H2]. apply reading_back; [exact H1|]. apply finite_is_finite; auto. Qed.

Lemma lines_laid : forall l, Forall (node_fine true) l ->
  exists wds, node_words (map (node_via22 true back) l) wds /\ laid_out wds (List.concat (map node_line l)).
Proof.
  induction l as [|n l IH]; intro H; [exists []; split; constructor|].
  inversion H as [|? ? (H1 & H2 & H3 & H4) H']; subst. destruct (IH H') as (wds & W & L).
  exists (show_Z (n_tag n) :: print (n_x n) :: print (n_y n) :: print (n_z n) :: wds).
  split.
  - cbn [map]. apply (nw_cons (node_via22 true back n)); [apply finite_round; assumption..|exact W].
  - cbn [map List.concat]. unfold node_line. rewrite <- !app_assoc.
    repeat (apply laid_cons; [first [apply ws_sp|apply ws_endl]|discriminate|]). exact L.
Qed.

Lemma via_ok : forall a x, dbl_ok a x -> dbl_ok a (via a back x).
Proof.
  intros a x [H1 H2]. unfold via. destruct a; [|split; assumption].
  apply staying. split; assumption.
Qed.

Lemma via_fine : forall a n, node_fine a n -> node_fine a (node_via22 a back n).
Proof.
  intros a n (H1 & H2 & H3 & H4). split; [|repeat split; apply via_ok; assumption].
  cbn [node_via22 n_tag tag_22]. unfold tag_22. destruct a; [exact H1|]. rewrite tag32_int. apply to_size_range.
Qed.

Lemma node_binary_any : forall c u n, node_fine false n ->
  RB (v22_node_binary c u) (node_bytes n) (row_of (node_via22 false back n)).
Proof.
  intros c u n (H1 & [H2 _] & [H3 _] & [H4 _]). unfold v22_node_binary, node_bytes.
  eapply RB_bind0; [intros; apply assert_good_ok; assumption|].
  rewrite <- (le4_int (n_tag n)). eapply RB_int_opt; [apply to_int_ok|].
  eapply RB_bind0; [intros; apply use_ok|].
  replace (le 8 (n_x n) ++ le 8 (n_y n) ++ le 8 (n_z n))
    with (List.concat (map (le 8) [n_x n; n_y n; n_z n]) ++ [])
    by (cbn [map List.concat]; rewrite !app_nil_r; reflexivity).
  eapply RB_bind.
  - apply rd_raw_array_RB; [reflexivity|]. intros o v Hv. apply rd_raw_double_RB.
    cbn [In] in Hv. destruct Hv as [<-|[<-|[<-|[]]]]; assumption.
  - rewrite <- tag32_int. apply RB_ret.
Qed.

Lemma load_nodes_any : forall c n l u, Forall (node_fine false) l -> nodes_mem c n l -> ws u ->
  EX (v22_load_nodes_binary c n) (u ++ show_Z (zlen l) ++ endl ++ List.concat (map node_bytes l))
     (nodes_after n (map (node_via22 false back) l)) [].
Proof.
  intros c n l u HT HM Hu. pose proof (nodes_mem_size _ _ _ HM) as HS. destruct HM as [M1 M2].
  unfold v22_load_nodes_binary.
  eapply EX_bind0; [intros; apply lift_ok; apply hold_fits; exact M1|].
  rewrite (app_assoc (show_Z _)), app_assoc.
  eapply EX_bind; [apply rd_size_RTe; [exact HS|exact Hu]|].
  eapply EX_bind0; [intros; apply assert_good_ok; assumption|].
  eapply EX_bind0; [intros; apply lift_ok; apply resizes_ok; [apply zlen_nonneg|exact M2]|].
  unfold nodes_after. rewrite zlen_map, map_map. apply eat1_then. eapply RB_last; [|apply RB_ret].
  apply mapM_RB'; [rewrite repeat_length; unfold zlen; lia|].
  intros x v _ Hv. rewrite Forall_forall in HT. apply node_binary_any. auto.
Qed.

Lemma nodes_mem_map : forall c n l (f : node -> node), nodes_mem c n l -> nodes_mem c n (map f l).
Proof. intros c n l f [H1 H2]. split; [exact H1|]. rewrite zlen_map. exact H2. Qed.

(** The section is written and read back. *)
Lemma nodes_PIECE22 : forall c a s spec, fmt v22s a s -> fmt v22s a spec ->
  n_num_nodes (nodes s) = zlen (mesh_nodes (nodes s)) ->
  (n_num_nodes (nodes s) <> 0 -> nodes_save c a (nodes s)) ->
  nodes spec = n_default ->
  PIECE c (if 0 <? n_num_nodes (nodes s) then save_nodes s else wret)
    spec (if n_num_nodes (nodes s) =? 0 then spec else
          set_nodes (nodes_after (prior_nodes (nodes spec)) (nodes_22 a back s)) spec).
Proof.
  intros c a s spec [Hv Ht] F' HN H H0. pose proof (zlen_nonneg _ (mesh_nodes (nodes s))) as P.
  destruct (n_num_nodes (nodes s) =? 0) eqn:E.
  - apply Z.eqb_eq in E. replace (0 <? n_num_nodes (nodes s)) with false by (symmetry; apply Z.ltb_ge; lia).
    apply PIECE_ret.
  - apply Z.eqb_neq in E. replace (0 <? n_num_nodes (nodes s)) with true by (symmetry; apply Z.ltb_lt; lia).
    specialize (H E). pose proof (saved_nodes_fine c a _ H) as HF.
    pose proof (save_nodes_22 c a _ H) as HW. destruct H as [N1 N2 N3 N4].
    assert (M : nodes_mem c (prior_nodes (nodes spec)) (mesh_nodes (nodes s))).
    { split; [rewrite H0; exact N3|]. rewrite <- HN. exact N4. }
    unfold save_nodes. cbv zeta. rewrite Hv, Ht. change (bytes_eqb v22s v41s) with false.
    change (bytes_eqb v22s v22s) with true. cbv iota. rewrite ftype_eqb, HW, HN.
    pose proof (nodes_dispatch c a spec _ F' eq_refl) as ED.
    destruct a.
    + eapply (section_PIECE_RT c (str "$Nodes")); [tok|reflexivity|reflexivity|].
      rewrite ED. apply (RT_map_ret _ _ _ (fun n' => set_nodes n' spec)).
      apply Text22P.load_nodes_a.
      * destruct (lines_laid _ HF) as (wds & W1 & W2). exists wds. split; [exact W1|].
        unfold nodes_22. rewrite zlen_map. apply laid_cons; [apply ws_endl|discriminate|exact W2].
      * unfold nodes_22. apply Forall_forall. intros n Hn. apply in_map_iff in Hn. destruct Hn as (m & <- & Hm).
        rewrite Forall_forall in HF. destruct (HF m Hm) as (X & _). exact X.
      * apply nodes_mem_map. exact M.
    + eapply (section_PIECE c (str "$Nodes") _ _ _ _ []); [tok|reflexivity|reflexivity| |constructor].
      rewrite ED. apply (EX_map_ret _ _ _ (fun n' => set_nodes n' spec)).
      apply load_nodes_any; [exact HF|exact M|apply ws_endl].
Qed.

(** ** Writing elements *)

Definition width (b : ElementBlock) : Z := npe b + 1.
Definition erows (b : ElementBlock) : list (list Z) := rows (eb_num b) (width b) (eb_data b).

(** The record written for a row: element tag, then node tags. *)
Definition rec_of (b : ElementBlock) (r : list Z) : el_rec :=
  {| er_id := to_int (hd 0 r); er_type := eb_type b; er_tags := [eb_tag b]; er_nodes := map to_int (tl r) |}.
Definition block_recs (b : ElementBlock) : list el_rec := map (rec_of b) (erows b).

Lemma block_facts : forall c a b, element_block_saves c a b ->
  gmsh_nodes (eb_type b) = Some (npe b) /\ 1 <= npe b /\ fits c sz_int (npe b) /\
  zlen (eb_data b) = eb_num b * width b /\ eb_num b * width b < two64 /\ 0 <= eb_num b /\
  nodes_per_element (eb_type b) = Ok (npe b).
Proof.
  intros c a b [H1 H2 H3 (n & G & L & F) H5 H6 [M _]]. unfold width, npe. rewrite G.
  destruct (gmsh_nodes_spec _ _ G) as (E & En & Et). change sz_size with 8 in M. rewrite PD8 in M.
  destruct H2 as [H2 _]. split; [reflexivity|]. split; [lia|]. split; [exact F|]. split; [exact L|].
  split; [rewrite <- L; unfold two64; lia|]. split; [exact H2|exact E].
Qed.

Lemma erows_zlen : forall c a b, element_block_saves c a b -> zlen (erows b) = eb_num b.
Proof.
  intros c a b H. destruct (block_facts c a b H) as (_ & _ & _ & _ & _ & N & _).
  unfold erows, rows. rewrite zlen_map. apply iota_len. exact N.
Qed.

Lemma erows_row : forall c a b r, element_block_saves c a b -> In r (erows b) -> zlen r = width b.
Proof.
  intros c a b r H Hr. destruct (block_facts c a b H) as (_ & N1 & _ & L & _ & N & _).
  unfold erows in Hr. eapply in_rows; [exact Hr|exact L|]. unfold width. lia.
Qed.

Lemma block_elements_rows : forall c a b, element_block_saves c a b ->
  block_elements b = map (element_of b) (erows b).
Proof.
  intros c a b H. destruct (block_facts c a b H) as (G & N1 & _ & L & _ & N & _).
  unfold block_elements. rewrite G. f_equal. apply cut_rows; [exact N|lia].
Qed.

(** One element: the tag and the loop over its node tags. *)
Lemma at_tl : forall A (r : list A) k, 0 <= k -> at_ r (k + 1) = at_ (tl r) k.
Proof.
  intros A r k Hk. unfold at_. replace (k + 1 <? 0) with false by (symmetry; apply Z.ltb_ge; lia).
  replace (k <? 0) with false by (symmetry; apply Z.ltb_ge; lia).
  replace (Z.to_nat (k + 1)) with (S (Z.to_nat k)) by lia.
  destruct r as [|x r]; [destruct (Z.to_nat k); reflexivity|reflexivity].
Qed.

Lemma element_row : forall c a b j, element_block_saves c a b -> 0 <= j < eb_num b ->
  let r := row (width b) (eb_data b) j in
  at_ (eb_data b) (to_size (j * (npe b + 1))) = Ok (hd 0 r) /\
  forall k, 0 <= k < npe b -> at_ (eb_data b) (to_size (j * (npe b + 1) + k + 1)) = at_ (tl r) k.
Proof.
  intros c a b j H Hj. destruct (block_facts c a b H) as (G & N1 & _ & L & B & N & _). cbv zeta.
  fold (width b). assert (W : width b = npe b + 1) by reflexivity.
  assert (R : forall k, 0 <= k <= npe b -> to_size (j * width b + k) = j * width b + k).
  { intros k Hk. apply to_size_id. nia. }
  split.
  - rewrite <- (Z.add_0_r (j * width b)), R by lia. rewrite at_row by lia.
    assert (ZL : zlen (row (width b) (eb_data b) j) = width b) by (eapply row_zlen; [exact L|lia|exact Hj]).
    destruct (row (width b) (eb_data b) j) as [|x r]; [rewrite zlen_nil in ZL; lia|]. reflexivity.
  - intros k Hk. rewrite <- Z.add_assoc, R by lia. rewrite at_row by lia. apply at_tl. lia.
Qed.

Definition element_line (b : ElementBlock) (r : list Z) : bytes :=
  show_Z (hd 0 r) ++ sp ++ show_Z (eb_type b) ++ sp ++ show_Z 1 ++ sp ++ show_Z (eb_tag b) ++ sp ++ line show_Z (tl r).

Lemma tl_zlen : forall A (r : list A) w, 0 <= w -> zlen r = w + 1 -> zlen (tl r) = w.
Proof. intros A [|x r] w Hw H; [rewrite zlen_nil in H|rewrite zlen_cons in H; cbn [tl]]; lia. Qed.

Lemma save_element_block_22a : forall c a b, element_block_saves c a b ->
  v22_save_element_block_ascii b = (List.concat (map (element_line b) (erows b)), Ok tt).
Proof.
  intros c a b H. destruct (block_facts c a b H) as (G & N1 & _ & L & B & N & E).
  unfold v22_save_element_block_ascii. eapply wlet_ok; [exact E|].
  transitivity (wfor (erows b) (fun r => out (element_line b r))); [|apply wfor_ok; intros; reflexivity].
  unfold erows, rows. rewrite wfor_map. apply wfor_ext. intros j Hj. apply in_iota in Hj.
  destruct (element_row c a b j H Hj) as (R1 & R2). rewrite R1. cbn [wlet].
  assert (ZL : zlen (tl (row (width b) (eb_data b) j)) = npe b).
  { apply tl_zlen; [lia|]. eapply row_zlen; [exact L|unfold width; lia|exact Hj]. }
  set (r := row (width b) (eb_data b) j) in *. clearbody r.
  rewrite (wfor_ext _ _ _ (fun k => wlet (at_ (tl r) k) (fun x => out (show_Z x ++ (if k =? npe b - 1 then endl else sp))))).
  2:{ intros k Hk. apply in_iota in Hk. rewrite R2 by lia. reflexivity. }
  rewrite (wfor_line _ show_Z (tl r) (npe b) (fun k => k =? npe b - 1) ZL).
  2:{ intro k. destruct (Z.eqb_spec k (npe b - 1)), (Z.eqb_spec (k + 1) (npe b)); lia || reflexivity. }
  unfold element_line, out. cbn [wseq fst snd]. rewrite <- !app_assoc. reflexivity.
Qed.

Definition block22_of (b : ElementBlock) : block22 :=
  {| bl_type := eb_type b; bl_ntags := 1; bl_recs := block_recs b |}.

Lemma save_element_block_22b : forall c a b, element_block_saves c a b ->
  v22_save_element_block_binary b = (block22_bytes (block22_of b), Ok tt).
Proof.
  intros c a b H. destruct (block_facts c a b H) as (G & N1 & _ & L & B & N & E).
  unfold v22_save_element_block_binary, block22_bytes. cbn [block22_of bl_type bl_ntags bl_recs].
  unfold block_recs. rewrite zlen_map, (erows_zlen c a b H).
  erewrite wseq_ok; [|apply out_ok|eapply wlet_ok; [exact E|]].
  { rewrite <- !app_assoc. reflexivity. }
  transitivity (wfor (erows b) (fun r => out (rec_bytes (rec_of b r)))).
  2:{ rewrite map_map. apply wfor_ok. intros; reflexivity. }
  unfold erows, rows. rewrite wfor_map. apply wfor_ext. intros j Hj. apply in_iota in Hj.
  destruct (element_row c a b j H Hj) as (R1 & R2). rewrite R1. cbn [wlet].
  assert (ZL : zlen (tl (row (width b) (eb_data b) j)) = npe b).
  { apply tl_zlen; [lia|]. eapply row_zlen; [exact L|unfold width; lia|exact Hj]. }
  set (r := row (width b) (eb_data b) j) in *. clearbody r.
  rewrite (wfor_ext _ _ _ (fun k => wlet (at_ (tl r) k) (fun x => out (le 4 x)))).
  2:{ intros k Hk. apply in_iota in Hk. rewrite R2 by lia. reflexivity. }
  rewrite (iota_at_all _ (tl r) (fun x => out (le 4 x)) (npe b)) by (symmetry; exact ZL).
  rewrite (wfor_ok _ (tl r) _ (le 4)) by (intros; reflexivity).
  unfold rec_bytes, rec_of, ints. cbn [er_id er_tags er_nodes map List.concat].
  rewrite le4_int, map_map, (map_ext _ _ le4_int), app_nil_r.
  unfold out. cbn [wseq fst snd]. rewrite <- !app_assoc. reflexivity.
Qed.

Definition mesh_recs (e : Elements) : list el_rec := flat_map block_recs (e_blocks e).

Lemma recs_elements : forall c a e, elements_save c a e ->
  map rec_element (mesh_recs e) = map element_via22 (mesh_elements e).
Proof.
  intros c a e [_ H _ _]. unfold mesh_recs, mesh_elements. induction H as [|b l Hb H IH]; [reflexivity|].
  cbn [flat_map]. rewrite !map_app, IH. f_equal. rewrite (block_elements_rows c a b Hb).
  unfold block_recs. rewrite !map_map. apply map_ext. intro r.
  unfold rec_element, element_via22, rec_of, element_of. cbn [el_type el_ent el_tag el_nodes er_id er_type er_tags er_nodes].
  rewrite tag32_int, map_map. f_equal. apply map_ext. intro x. symmetry. apply tag32_int.
Qed.

Lemma mesh_recs_zlen : forall c a e, elements_save c a e -> zlen (mesh_recs e) = zlen (mesh_elements e).
Proof.
  intros c a e H. rewrite <- (zlen_map _ _ rec_element), (recs_elements c a e H), zlen_map. reflexivity.
Qed.

Lemma rec_of_ok : forall c a b r, element_block_saves c a b -> In r (erows b) -> rec_ok (rec_of b r).
Proof.
  intros c a b r H Hr. pose proof (erows_row c a b r H Hr) as ZL.
  destruct (block_facts c a b H) as (G & N1 & _). destruct H as [T _ _ _ _ _ _]. split; cbn [rec_of er_id er_type er_tags er_nodes].
  - apply to_int_ok.
  - rewrite zlen_map, (tl_zlen _ r (npe b)); [exact G|lia|exact ZL].
  - constructor; [exact T|constructor].
  - apply Forall_forall. intros x Hx. apply in_map_iff in Hx. destruct Hx as (y & <- & _). apply to_int_ok.
Qed.

Lemma mesh_recs_ok : forall c a e, elements_save c a e ->
  Forall (fun r => rec_ok r /\ zlen (er_tags r) = 1 /\ fits c sz_int (zlen (er_nodes r))) (mesh_recs e).
Proof.
  intros c a e [_ H _ _]. apply Forall_forall. intros r Hr. unfold mesh_recs in Hr. apply in_flat_map in Hr.
  destruct Hr as (b & Hb & Hr). unfold block_recs in Hr. apply in_map_iff in Hr. destruct Hr as (x & <- & Hx).
  rewrite Forall_forall in H. specialize (H b Hb). split; [eapply rec_of_ok; eassumption|]. split; [reflexivity|].
  destruct (block_facts c a b H) as (_ & N1 & F & _). cbn [rec_of er_nodes].
  rewrite zlen_map, (tl_zlen _ x (npe b)); [exact F|lia|]. eapply erows_row; eassumption.
Qed.

Lemma spaced_laid : forall A (show : A -> bytes) l t, spaced show l t -> laid_out (map show l) t.
Proof. intros A show l t H. induction H; cbn [map]; constructor; assumption. Qed.

Lemma laid_app : forall u v t t', laid_out u t -> laid_out v t' -> laid_out (u ++ v) (t ++ t').
Proof.
  intros u v t t' H H'. induction H as [|w sep l t H1 H2 H IH]; [exact H'|].
  cbn [app]. rewrite <- !app_assoc. constructor; assumption.
Qed.

Lemma in_rows_data : forall A (l : list A) n w r x, In r (rows n w l) -> In x r -> In x l.
Proof.
  intros A l n w r x H Hx. unfold rows in H. apply in_map_iff in H. destruct H as (j & <- & _).
  unfold row in Hx. apply in_firstn in Hx. apply in_skipn in Hx. exact Hx.
Qed.

Lemma line_laid : forall c b r, element_block_saves c true b -> In r (erows b) ->
  laid_out (rec_words (rec_of b r)) (element_line b r).
Proof.
  intros c b r H Hr. pose proof (erows_row c true b r H Hr) as ZL.
  destruct (block_facts c true b H) as (_ & N1 & _). destruct H as [_ _ _ _ V V32 _]. specialize (V32 eq_refl).
  assert (I : forall x, In x r -> to_int x = x).
  { intros x Hx. pose proof (in_rows_data _ _ _ _ _ _ Hr Hx) as D. rewrite Forall_forall in V, V32.
    apply to_int_id. specialize (V x D). specialize (V32 x D). unfold size_ok, INT_MIN in *. lia. }
  destruct r as [|x r]; [rewrite zlen_nil in ZL; unfold width in ZL; lia|].
  unfold rec_words, rec_of, element_line. cbn [er_id er_type er_tags er_nodes hd tl].
  rewrite (I x) by (left; reflexivity). rewrite (map_ext_in to_int (fun y => y)) by (intros; apply I; right; assumption).
  rewrite map_id. change (zlen [eb_tag b]) with 1. cbn [map app].
  repeat (apply laid_cons; [apply ws_sp|discriminate|]). apply spaced_laid. apply spaced_line.
Qed.

Lemma block_laid : forall c b, element_block_saves c true b ->
  laid_out (flat_map rec_words (block_recs b)) (List.concat (map (element_line b) (erows b))).
Proof.
  intros c b H. unfold block_recs.
  assert (G : forall l, (forall r, In r l -> In r (erows b)) ->
    laid_out (flat_map rec_words (map (rec_of b) l)) (List.concat (map (element_line b) l))).
  { induction l as [|r l IH]; intro HI; [constructor|]. cbn [map flat_map List.concat]. apply laid_app.
    - eapply line_laid; [exact H|]. apply HI. left. reflexivity.
    - apply IH. intros; apply HI; right; assumption. }
  apply G. auto.
Qed.

Lemma mesh_laid : forall c e, elements_save c true e ->
  laid_out (flat_map rec_words (mesh_recs e))
    (List.concat (map (fun b => List.concat (map (element_line b) (erows b))) (e_blocks e))).
Proof.
  intros c e [_ H _ _]. unfold mesh_recs. induction H as [|b l Hb H IH]; [constructor|].
  cbn [flat_map map List.concat]. rewrite flat_map_app. apply laid_app; [eapply block_laid; exact Hb|exact IH].
Qed.

Lemma save_elements_22 : forall c a e, elements_save c a e ->
  (if a then v22_save_elements_ascii e else v22_save_elements_binary e) =
  (show_Z (e_num_elements e) ++ endl ++
   (if a then List.concat (map (fun b => List.concat (map (element_line b) (erows b))) (e_blocks e))
    else List.concat (map block22_bytes (map block22_of (e_blocks e)))), Ok tt).
Proof.
  intros c a e [N1 N2 N3 N4]. rewrite Forall_forall in N2. rewrite map_map.
  destruct a; [unfold v22_save_elements_ascii|unfold v22_save_elements_binary];
    (erewrite wseq_ok; [|apply out_ok|rewrite iota_at_all by exact N1; apply wfor_ok; intros b Hb];
     [rewrite <- app_assoc; reflexivity|]).
  - apply (save_element_block_22a c true). auto.
  - apply (save_element_block_22b c false). auto.
Qed.

Lemma flat_map_map : forall A B C (f : A -> B) (g : B -> list C) l, flat_map g (map f l) = flat_map (fun x => g (f x)) l.
Proof. intros. induction l as [|x l IH]; [reflexivity|]. cbn [map flat_map]. rewrite IH. reflexivity. Qed.

Lemma saved_blocks_fit : forall c e e0, elements_save c false e -> e_num_elements e = zlen (mesh_elements e) ->
  fits c sz_int 1 -> e_blocks e0 = [] -> blocks_fit c e0 (map block22_of (e_blocks e)).
Proof.
  intros c e e0 H HN H1 H0. pose proof (mesh_recs_zlen c false e H) as ZL. destruct H as [E1 E2 E3 E4].
  rewrite Forall_forall in E2. specialize (E4 eq_refl).
  split.
  - apply Forall_forall. intros x Hx. apply in_map_iff in Hx. destruct Hx as (b & <- & Hb). specialize (E2 b Hb).
    pose proof (erows_zlen c false b E2) as ZE. destruct (block_facts c false b E2) as (G & _).
    split; cbn [block22_of bl_type bl_recs bl_ntags].
    + rewrite G. discriminate.
    + apply Forall_forall. intros r Hr. unfold block_recs in Hr. apply in_map_iff in Hr. destruct Hr as (y & <- & _).
      split; reflexivity.
    + unfold block_recs. rewrite zlen_map, ZE. apply (ebs_num32 _ _ _ E2). reflexivity.
    + unfold INT_MAX. lia.
  - apply Forall_forall. intros x Hx. apply in_map_iff in Hx. destruct Hx as (b & <- & Hb). specialize (E2 b Hb).
    cbn [block22_of bl_recs]. apply Forall_forall. intros r Hr. unfold block_recs in Hr. apply in_map_iff in Hr.
    destruct Hr as (y & <- & Hy). eapply rec_of_ok; eassumption.
  - apply Forall_forall. intros x Hx. apply in_map_iff in Hx. destruct Hx as (b & <- & Hb). specialize (E2 b Hb).
    destruct (block_facts c false b E2) as (G & _ & F & _).
    split; cbn [block22_of bl_type bl_ntags]; [exact H1|]. intros n Hn. rewrite G in Hn. injection Hn as <-. exact F.
  - intro N. destruct (exists_last (l := e_blocks e)) as (bs & b & EB).
    { intro X. rewrite X in N. apply N. reflexivity. }
    rewrite EB, map_app. cbn [map]. rewrite last_last. specialize (E4 bs b EB). cbn [block22_of bl_recs]. unfold block_recs.
    assert (Hb : In b (e_blocks e)) by (rewrite EB; apply in_or_app; right; left; reflexivity).
    pose proof (erows_zlen c false b (E2 b Hb)) as ZE. intro X. destruct (erows b); [rewrite zlen_nil in ZE; lia|discriminate].
  - rewrite H0, zlen_nil, Z.add_0_l. rewrite flat_map_map.
    change (flat_map (fun x => bl_recs (block22_of x)) (e_blocks e)) with (mesh_recs e). rewrite ZL, <- HN. exact E3.
Qed.

Definition elements_step (a : bool) (s spec : MshSpec) : MshSpec :=
  if e_num_elements (elements s) =? 0 then spec else
  let r := elements_after a (prior_elements (elements spec)) (entities spec) (mesh_recs (elements s)) in
  set_entities (snd r) (set_elements (fst r) spec).

Lemma elements_PIECE22 : forall c a s spec, fmt v22s a s -> fmt v22s a spec ->
  e_num_elements (elements s) = zlen (mesh_elements (elements s)) ->
  (e_num_elements (elements s) <> 0 -> elements_save c a (elements s)) ->
  fits c sz_int 1 -> elements spec = e_default ->
  PIECE c (if 0 <? e_num_elements (elements s) then save_elements s else wret)
    spec (elements_step a s spec).
Proof.
  intros c a s spec [Hv Ht] F' HN H H1 H0. pose proof (zlen_nonneg _ (mesh_elements (elements s))) as P.
  unfold elements_step. destruct (e_num_elements (elements s) =? 0) eqn:E.
  - apply Z.eqb_eq in E. replace (0 <? e_num_elements (elements s)) with false by (symmetry; apply Z.ltb_ge; lia).
    apply PIECE_ret.
  - apply Z.eqb_neq in E. replace (0 <? e_num_elements (elements s)) with true by (symmetry; apply Z.ltb_lt; lia).
    specialize (H E). pose proof (mesh_recs_zlen c a _ H) as ZL. pose proof (mesh_recs_ok c a _ H) as RO.
    pose proof (save_elements_22 c a _ H) as HW.
    assert (PB : e_blocks (prior_elements (elements spec)) = []) by (rewrite H0; reflexivity).
    unfold save_elements. cbv zeta. rewrite Hv, Ht. change (bytes_eqb v22s v41s) with false.
    change (bytes_eqb v22s v22s) with true. cbv iota. rewrite ftype_eqb, HW.
    pose proof (elements_dispatch c a spec _ F' eq_refl) as ED.
    rewrite HN, <- ZL. destruct a.
    + eapply (section_PIECE_RT c (str "$Elements")); [tok|reflexivity|reflexivity|].
      rewrite ED. apply (RT_map_ret _ _ _ (fun r' => set_entities (snd r') (set_elements (fst r') spec))).
      apply Text22P.load_elements_a.
      * unfold elements_ascii. apply laid_cons; [apply ws_endl|discriminate|]. apply (mesh_laid c). exact H.
      * split.
        -- eapply Forall_impl; [|exact RO]. cbn beta. tauto.
        -- eapply Forall_impl; [|exact RO]. cbn beta. intros r (_ & -> & _). unfold INT_MAX. lia.
        -- eapply Forall_impl; [|exact RO]. cbn beta. intros r (_ & Q & X). split; [rewrite Q; exact H1|exact X].
        -- rewrite PB, zlen_nil, Z.add_0_l, ZL, <- HN. apply H.
    + eapply (section_PIECE c (str "$Elements") _ _ _ _ []); [tok|reflexivity|reflexivity| |constructor].
      rewrite ED. apply (EX_map_ret _ _ _ (fun r' => set_entities (snd r') (set_elements (fst r') spec))).
      assert (EQ : mesh_recs (elements s) = flat_map bl_recs (map block22_of (e_blocks (elements s))))
        by (rewrite flat_map_map; reflexivity).
      rewrite EQ. apply Text22P.load_elements_b; [|apply ws_endl].
      apply saved_blocks_fit; assumption.
Qed.

(** ** The whole file *)

Definition nodes_step (a : bool) (s spec : MshSpec) : MshSpec :=
  if n_num_nodes (nodes s) =? 0 then spec else
  set_nodes (nodes_after (prior_nodes (nodes spec)) (nodes_22 a back s)) spec.

Definition base22 (s : MshSpec) : MshSpec :=
  set_physical_groups (physical_groups s) (set_format (mesh_format s) spec_default).

Definition mid22 (a : bool) (s : MshSpec) : MshSpec := elements_step a s (nodes_step a s (base22 s)).

Definition raw22_of (c : cfg) (a : bool) (s : MshSpec) : MshSpec :=
  ns_via c a s
    (set_element_node_data (map (data_via a back) (element_node_data s))
    (set_element_data (map (data_via a back) (element_data s))
    (set_node_data (map (data_via a back) (node_data s)) (mid22 a s)))).

Lemma nodes_step_rest : forall a s spec, same_rest spec (nodes_step a s spec) /\
  entities (nodes_step a s spec) = entities spec /\ elements (nodes_step a s spec) = elements spec.
Proof. intros. unfold nodes_step. destruct (_ =? 0); repeat split. Qed.

Lemma elements_step_rest : forall a s spec, same_rest spec (elements_step a s spec) /\
  nodes (elements_step a s spec) = nodes spec.
Proof. intros. unfold elements_step. destruct (_ =? 0); repeat split. Qed.

Lemma mid22_rest : forall a s, same_rest (base22 s) (mid22 a s).
Proof.
  intros. unfold mid22. eapply same_rest_trans; [apply (nodes_step_rest a s)|apply (elements_step_rest a s)].
Qed.

Lemma fmt_rest : forall v a s s', same_rest s s' -> fmt v a s -> fmt v a s'.
Proof. intros v a s s' R [H1 H2]. destruct R as [E _ _ _]. split; rewrite E; assumption. Qed.

Lemma piece22 : forall c a s, consistent22 c a s -> PIECE c (save_msh c s) spec_default (raw22_of c a s).
Proof.
  intros c a s [Hv Ht Hd Kg Knn Kn Kne Ke Kr Kw [M1 M2] Knd Ked Kend Hns].
  assert (Ht' : file_type (mesh_format s) = ftype a) by exact Ht.
  assert (F : fmt v22s a s) by (split; assumption).
  assert (FB : fmt v22s a (base22 s)) by (split; assumption).
  destruct (nodes_step_rest a s (base22 s)) as (N1 & N2 & N3).
  pose proof (mid22_rest a s) as MR.
  pose proof (fmt_rest _ _ _ _ N1 FB) as FN. pose proof (fmt_rest _ _ _ _ MR FB) as FM.
  destruct MR as [_ _ (D1 & D2 & D3) (X1 & X2 & X3)].
  unfold save_msh.
  eapply PIECE_seq; [apply format_PIECE; [right; exact Hv| |right; split; [exact Hv|exact Hd]]|].
  { rewrite Ht'. destruct a; auto. }
  eapply PIECE_seq; [apply groups_PIECE; [exact Kg|reflexivity]|].
  eapply PIECE_seq; [instantiate (1 := base22 s)|].
  { unfold save_entities. cbv zeta. rewrite (proj1 F). change (bytes_eqb v22s v22s) with true. cbv iota.
    destruct (negb _); apply PIECE_ret. }
  eapply PIECE_seq; [apply (nodes_PIECE22 c a); auto|]. fold (nodes_step a s (base22 s)).
  eapply PIECE_seq; [apply (elements_PIECE22 c a); auto; rewrite N3; reflexivity|]. fold (mid22 a s).
  eapply PIECE_seq; [apply (node_data_PIECE c v22s a); auto|].
  eapply PIECE_seq; [apply (element_data_PIECE c v22s a); auto|].
  eapply PIECE_seq; [apply (element_node_data_PIECE c v22s a); auto|].
  apply (splines_PIECE c v22s a); auto.
Qed.

Lemma inv22_base : forall c s, inv22 c (base22 s).
Proof. intros c s. pose proof (inv22_default c) as [I1 I2 I3 I4 I5 I6 I7 I8 I9 I10 I11]. split; assumption. Qed.

Definition parts_of (a : bool) (s : MshSpec) : list part :=
  (if n_num_nodes (nodes s) =? 0 then [] else [NodesPart (nodes_22 a back s)]) ++
  (if e_num_elements (elements s) =? 0 then [] else [ElementsPart (mesh_recs (elements s))]).

Lemma nodes_22_empty : forall c a s, consistent22 c a s -> n_num_nodes (nodes s) = 0 -> nodes_22 a back s = [].
Proof.
  intros c a s H E. pose proof (ok22_num_nodes _ _ _ H) as N. rewrite E in N. unfold nodes_22.
  destruct (mesh_nodes (nodes s)) as [|x l]; [reflexivity|]. rewrite zlen_cons in N. pose proof (zlen_nonneg _ l). lia.
Qed.

Lemma elements_22_empty : forall c a s, consistent22 c a s -> e_num_elements (elements s) = 0 -> elements_22 s = [].
Proof.
  intros c a s H E. pose proof (ok22_num_elements _ _ _ H) as N. rewrite E in N. unfold elements_22.
  destruct (mesh_elements (elements s)) as [|x l]; [reflexivity|]. rewrite zlen_cons in N. pose proof (zlen_nonneg _ l). lia.
Qed.

Lemma mid22_facts : forall c a s, consistent22 c a s ->
  inv22 c (mid22 a s) /\ loaded_parts a (parts_of a s) (base22 s) (mid22 a s).
Proof.
  intros c a s H. pose proof H as [Hv Ht Hd Kg Knn Kn Kne Ke Kr Kw [M1 M2] _ _ _ _].
  assert (FB : fmt v22s a (base22 s)) by (split; [exact Hv|exact Ht]).
  destruct (nodes_step_rest a s (base22 s)) as (N1 & N2 & N3).
  pose proof (fmt_rest _ _ _ _ N1 FB) as FN.
  assert (A : inv22 c (nodes_step a s (base22 s)) /\
              loaded_parts a (if n_num_nodes (nodes s) =? 0 then [] else [NodesPart (nodes_22 a back s)])
                (base22 s) (nodes_step a s (base22 s))).
  { pose proof (inv22_base c s) as HI. unfold nodes_step. destruct (n_num_nodes (nodes s) =? 0) eqn:E.
    - split; [exact HI|]. apply (loaded_parts_nil c). exact HI.
    - apply Z.eqb_neq in E. specialize (Kn E).
      assert (PO : part_ok true (NodesPart (nodes_22 a back s))).
      { cbn [part_ok]. unfold nodes_22. pose proof (saved_nodes_fine c a _ Kn) as F.
        apply Forall_forall. intros x Hx. apply in_map_iff in Hx. destruct Hx as (y & <- & Hy).
        rewrite Forall_forall in F. destruct (via_fine a y (F y Hy)) as (G1 & [G2 _] & [G3 _] & [G4 _]).
        repeat split; try assumption; try (apply G1); try (apply G2); try (apply G3); try (apply G4). discriminate. }
      assert (PF : part_fits c (base22 s) (NodesPart (nodes_22 a back s))).
      { split; [|exact I]. apply nodes_mem_map. destruct Kn as [_ _ G1 G2]. split; [exact G1|]. rewrite <- Knn. exact G2. }
      split; [exact (part_inv c true a _ _ FB HI PO PF)|exact (part_facts c true a _ _ HI PO PF)]. }
  destruct A as [HI LP]. unfold mid22, parts_of.
  destruct (e_num_elements (elements s) =? 0) eqn:E.
  - assert (EQ : elements_step a s (nodes_step a s (base22 s)) = nodes_step a s (base22 s))
      by (unfold elements_step; rewrite E; reflexivity).
    rewrite EQ, app_nil_r. split; assumption.
  - assert (EQ : elements_step a s (nodes_step a s (base22 s)) =
                 part_after a (nodes_step a s (base22 s)) (ElementsPart (mesh_recs (elements s))))
      by (unfold elements_step; rewrite E; reflexivity).
    rewrite EQ. apply Z.eqb_neq in E. specialize (Ke E).
    pose proof (mesh_recs_ok c a _ Ke) as RO. pose proof (mesh_recs_zlen c a _ Ke) as ZL.
    assert (PO : part_ok true (ElementsPart (mesh_recs (elements s)))).
    { cbn [part_ok]. eapply Forall_impl; [|exact RO]. cbn beta. intros r (Q1 & Q2 & _). rewrite Q2. split; [exact Q1|].
      unfold INT_MAX. lia. }
    assert (PF : part_fits c (nodes_step a s (base22 s)) (ElementsPart (mesh_recs (elements s)))).
    { split; [exact I|]. rewrite N3. split.
      - eapply Forall_impl; [|exact RO]. cbn beta. intros r (_ & Q & X). split; [rewrite Q; exact M2|exact X].
      - change (zlen (e_blocks (elements (base22 s)))) with 0. rewrite Z.add_0_l, ZL, <- Kne. apply Ke. }
    split; [exact (part_inv c true a _ _ FN HI PO PF)|].
    eapply loaded_parts_app; [exact LP|exact (part_facts c true a _ _ HI PO PF)].
Qed.

Lemma table_empty : forall recs d l, Forall (fun r => zlen (er_tags r) = 1) recs -> entity_table recs d l -> l = [].
Proof.
  intros recs d l H [T1 T2 T3]. destruct l as [|[t ps] l]; [reflexivity|]. exfalso.
  destruct (T2 t ps) as [_ N]; [left; reflexivity|]. destruct ps as [|p ps]; [congruence|].
  destruct (proj1 (T3 t p)) as (r & q & R1 & _ & R2).
  - exists (p :: ps). split; left; reflexivity.
  - rewrite Forall_forall in H. specialize (H r R1). rewrite R2, !zlen_cons in H. pose proof (zlen_nonneg _ q). lia.
Qed.

Lemma entities_22 : forall c a s, consistent22 c a s -> entities (mid22 a s) = ents_default.
Proof.
  intros c a s H. destruct (mid22_facts c a s H) as [_ [_ _ _ _ _ EF]].
  assert (G : forall en en', en = ents_default ->
    entities_from (if e_num_elements (elements s) =? 0 then [] else [ElementsPart (mesh_recs (elements s))]) en en' ->
    en' = ents_default).
  { intros en en' -> Q. destruct (e_num_elements (elements s) =? 0) eqn:E; [inversion Q; reflexivity|].
    apply Z.eqb_neq in E. pose proof (mesh_recs_ok c a _ (ok22_elements _ _ _ H E)) as RO.
    assert (R1 : Forall (fun r => zlen (er_tags r) = 1) (mesh_recs (elements s))).
    { eapply Forall_impl; [|exact RO]. cbn beta. tauto. }
    inversion Q as [| |? ? ? ? ? EA Q']; subst. inversion Q'; subst.
    destruct EA as (l0 & l1 & l2 & l3 & T0 & T1 & T2 & T3 & E0 & E1 & E2 & E3).
    apply (table_empty _ _ _ R1) in T0, T1, T2, T3. subst. destruct en' as [p q u v].
    cbn [points curves_e surfaces_e volumes_e map] in *. rewrite E0, E1, E2, E3. reflexivity. }
  unfold parts_of in EF. destruct (n_num_nodes (nodes s) =? 0); cbn [app] in EF.
  - eapply G; [|exact EF]. reflexivity.
  - inversion EF; subst. eapply G; [|eassumption]. reflexivity.
Qed.

Lemma all_nodes_of : forall c a s, consistent22 c a s -> all_nodes (parts_of a s) = nodes_22 a back s.
Proof.
  intros c a s H. unfold parts_of. destruct (n_num_nodes (nodes s) =? 0) eqn:E.
  - apply Z.eqb_eq in E. rewrite (nodes_22_empty c a s H E). destruct (_ =? 0); reflexivity.
  - unfold all_nodes. rewrite flat_map_app. cbn [flat_map part_nodes].
    destruct (e_num_elements (elements s) =? 0); cbn [flat_map part_nodes app]; rewrite ?app_nil_r; reflexivity.
Qed.

Lemma all_recs_of : forall c a s, consistent22 c a s ->
  map rec_element (all_recs (parts_of a s)) = elements_22 s /\ zlen (all_recs (parts_of a s)) = e_num_elements (elements s) /\
  (all_recs (parts_of a s) = [] \/ all_recs (parts_of a s) = mesh_recs (elements s)) /\
  last_recs (parts_of a s) [] = all_recs (parts_of a s).
Proof.
  intros c a s H. unfold parts_of.
  assert (P : forall X : list part, all_recs ((if n_num_nodes (nodes s) =? 0 then [] else [NodesPart (nodes_22 a back s)]) ++ X) =
    all_recs X /\ last_recs ((if n_num_nodes (nodes s) =? 0 then [] else [NodesPart (nodes_22 a back s)]) ++ X) [] = last_recs X [])
    by (intro X; destruct (_ =? 0); split; reflexivity).
  match goal with |- context [_ ++ ?X] => destruct (P X) as [-> ->] end.
  destruct (e_num_elements (elements s) =? 0) eqn:E.
  - apply Z.eqb_eq in E. rewrite (elements_22_empty c a s H E), E. repeat split. left. reflexivity.
  - apply Z.eqb_neq in E. pose proof (ok22_elements _ _ _ H E) as K.
    unfold all_recs. cbn [flat_map part_recs last_recs]. rewrite app_nil_r.
    rewrite (recs_elements c a _ K), (mesh_recs_zlen c a _ K). repeat split.
    + symmetry. apply H.
    + right. reflexivity.
Qed.

Lemma least_size_in : forall l m, Forall size_ok l -> l <> [] -> least SIZE_MAX l m -> In m l.
Proof.
  intros l m H N ([->|L1] & _ & L3); [|exact L1]. destruct l as [|x l]; [congruence|].
  inversion H as [|? ? Hx _]; inversion L3; subst. left. unfold size_ok, SIZE_MAX, two64 in *. lia.
Qed.

Lemma greatest_size_in : forall l m, Forall size_ok l -> l <> [] -> greatest 0 l m -> In m l.
Proof.
  intros l m H N ([->|L1] & _ & L3); [|exact L1]. destruct l as [|x l]; [congruence|].
  inversion H as [|? ? Hx _]; inversion L3; subst. left. unfold size_ok in *. lia.
Qed.

Lemma node_tag_22 : forall a n, n_tag (node_via22 a back n) = tag_22 a (n_tag n).
Proof. reflexivity. Qed.

Lemma ranges_22 : forall c a s, consistent22 c a s -> forall n1 n2, In n1 (nodes_22 a back s) -> In n2 (nodes_22 a back s) ->
  fits c sz_size (n_tag n2 - n_tag n1 + 1).
Proof.
  intros c a s H n1 n2 H1 H2. apply in_map_iff in H1, H2. destruct H1 as (m1 & <- & H1). destruct H2 as (m2 & <- & H2).
  rewrite !node_tag_22. apply (ok22_range _ _ _ H); assumption.
Qed.

Lemma in_block_element : forall b e t, In e (block_elements b) -> In t (el_nodes e) -> In t (eb_data b).
Proof.
  intros b e t He Ht. unfold block_elements in He. destruct (gmsh_nodes (eb_type b)); [|destruct He]. apply in_map_iff in He. destruct He as (r & <- & Hr).
  cbn [element_of el_nodes] in Ht. eapply cut_in; [exact Hr|]. destruct r; [destruct Ht|right; exact Ht].
Qed.

Lemma refs_22 : forall c a s, consistent22 c a s -> forall e t, In e (elements_22 s) -> In t (el_nodes e) ->
  exists n1 n2, In n1 (nodes_22 a back s) /\ In n2 (nodes_22 a back s) /\ n_tag n1 <= t <= n_tag n2.
Proof.
  intros c a s H e t He Ht. apply in_map_iff in He. destruct He as (x & <- & Hx).
  cbn [element_via22 el_nodes] in Ht. apply in_map_iff in Ht. destruct Ht as (u & <- & Hu).
  destruct (ok22_refs _ _ _ H x u Hx Hu) as (n1 & n2 & H1 & H2 & B).
  assert (E : tag_22 a u = tag32 u).
  { unfold tag_22. destruct a; [|reflexivity]. symmetry. apply tag32_small.
    assert (N0 : e_num_elements (elements s) <> 0).
    { rewrite (ok22_num_elements _ _ _ H). destruct (mesh_elements (elements s)) as [|y l]; [destruct Hx|].
      rewrite zlen_cons. pose proof (zlen_nonneg _ l). lia. }
    pose proof (es_blocks _ _ _ (ok22_elements _ _ _ H N0)) as EB. rewrite Forall_forall in EB.
    apply in_flat_map in Hx. destruct Hx as (b & Hb & Hx). specialize (EB b Hb).
    pose proof (in_block_element b x u Hx Hu) as D. destruct EB as [_ _ _ _ V V32 _]. specialize (V32 eq_refl).
    rewrite Forall_forall in V, V32. specialize (V u D). specialize (V32 u D). unfold size_ok in V. lia. }
  exists (node_via22 a back n1), (node_via22 a back n2). rewrite !node_tag_22, <- E.
  split; [apply in_map; exact H1|]. split; [apply in_map; exact H2|exact B].
Qed.

(** The range of node tags of the loaded nodes. *)
Lemma raw_bounds : forall c a s n, consistent22 c a s -> tag_bounds n ->
  Forall node_block_22 (n_blocks n) ->
  (n_num_nodes (nodes s) = 0 -> n = n_default) -> mesh_nodes n = nodes_22 a back s ->
  (nodes_22 a back s = [] /\ n_min n = 0 /\ n_max n = 0) \/
  (exists n1 n2, In n1 (nodes_22 a back s) /\ In n2 (nodes_22 a back s) /\ n_tag n1 = n_min n /\
     n_tag n2 = n_max n /\ forall x, In x (nodes_22 a back s) -> n_min n <= n_tag x <= n_max n).
Proof.
  intros c a s n H HB HN H0 HM. destruct (Z.eq_dec (n_num_nodes (nodes s)) 0) as [E|E].
  - left. rewrite (H0 E) in *. repeat split. symmetry. exact HM.
  - destruct HB as [(X & _)|(_ & L & G)].
    + exfalso. apply E. rewrite (ok22_num_nodes _ _ _ H). unfold mesh_nodes in HM at 1. rewrite X in HM.
      unfold nodes_22 in HM. destruct (mesh_nodes (nodes s)); [reflexivity|discriminate].
    + right. pose proof (mesh_tags_size n HN) as SZ.
      assert (NE : map n_tag (mesh_nodes n) <> []).
      { rewrite HM. unfold nodes_22. intro X. apply map_eq_nil, map_eq_nil in X. apply E.
        rewrite (ok22_num_nodes _ _ _ H), X. reflexivity. }
      pose proof (least_size_in _ _ SZ NE L) as IL. pose proof (greatest_size_in _ _ SZ NE G) as IG.
      rewrite HM in *. apply in_map_iff in IL, IG. destruct IL as (n1 & E1 & I1). destruct IG as (n2 & E2 & I2).
      exists n1, n2. repeat (split; [assumption|]). intros x Hx.
      destruct L as (_ & _ & L). destruct G as (_ & _ & G). rewrite Forall_forall in L, G.
      assert (IX : In (n_tag x) (map n_tag (nodes_22 a back s))) by (apply in_map; exact Hx).
      split; [exact (L _ IX)|exact (G _ IX)].
Qed.

Theorem roundtrip22 : forall c a s, consistent22 c a s ->
  exists b s', save_msh c s = (b, Ok tt) /\ load_msh c b = Ok s' /\ kept22 c a back s s'.
Proof.
  intros c a s H. destruct (piece22 c a s H) as (b & E & L). exists b.
  rewrite (LOADS_file c b _ L).
  pose proof (entities_22 c a s H) as HEN. destruct (mid22_facts c a s H) as [HI0 LP].
  pose proof (all_nodes_of c a s H) as AN. destruct (all_recs_of c a s H) as (AR & AZ & AC & AL).
  destruct LP as [P1 P2 P3 P4 P5 _].
  set (raw := raw22_of c a s) in *.
  assert (F : nodes raw = nodes (mid22 a s) /\ elements raw = elements (mid22 a s) /\ entities raw = entities (mid22 a s) /\
              mesh_format raw = mesh_format (mid22 a s) /\ physical_groups raw = physical_groups (mid22 a s) /\
              (node_data raw = map (data_via a back) (node_data s) /\
              element_data raw = map (data_via a back) (element_data s) /\
              element_node_data raw = map (data_via a back) (element_node_data s)) /\
              (ns_version raw, curves raw, patches raw) =
                (if nanospline c then (ns_version s, map (curve_via a back) (curves s), map (patch_via a back) (patches s))
                 else (ns_version (mid22 a s), curves (mid22 a s), patches (mid22 a s)))).
  { unfold raw, raw22_of, ns_via. destruct (nanospline c); repeat split. }
  destruct F as (F1 & F2 & F3 & F4 & F5 & F6 & F7).
  destruct P1 as [Q1 Q2 _ (Q3 & Q4 & Q5)]. rewrite Q3, Q4, Q5 in F7.
  change (mesh_nodes (nodes (base22 s))) with (@nil node) in P2.
  change (mesh_elements (elements (base22 s))) with (@nil element) in P3.
  cbn [app] in P2, P3. rewrite AN, <- F1 in P2. rewrite AR, <- F2 in P3.
  assert (HI : inv22 c raw).
  { destruct HI0 as [I1 I2 I3 I4 I5 I6 I7 I8 I9 I10 I11]. split; rewrite ?F1, ?F2; assumption. }
  clear HI0. clearbody raw.
  assert (MF : mesh_format raw = mesh_format s) by (rewrite F4, Q1; reflexivity).
  assert (N0 : n_num_nodes (nodes s) = 0 -> nodes raw = n_default).
  { intro X. rewrite F1. unfold mid22. rewrite (proj2 (elements_step_rest a s _)). unfold nodes_step. rewrite X. reflexivity. }
  pose proof (raw_bounds c a s (nodes raw) H (iv_bounds c raw HI) (iv_nodes c raw HI) N0 P2) as BND.
  assert (LE : n_min (nodes raw) <= n_max (nodes raw)).
  { destruct BND as [(_ & -> & ->)|(n1 & n2 & I1 & I2 & E1 & E2 & A)]; [lia|]. specialize (A n1 I1). lia. }
  destruct (post_safe22 c raw) as [(_ & s' & EP & R)|(X & _)].
  - rewrite MF. apply H.
  - exact HI.
  - exact LE.
  - destruct BND as [(_ & -> & ->)|(n1 & n2 & I1 & I2 & E1 & E2 & A)].
    + apply (ok22_mem _ _ _ H).
    + rewrite <- E1, <- E2. apply (ranges_22 c a s H); assumption.
  - exists s'. split; [exact E|]. split; [exact EP|].
    destruct R as [R1 R2 R3 R4 R5 R6 R7 R8 R0 R9 R10 (nbs & ebs & ES)].
    assert (G : mesh_format s' = mesh_format raw /\ physical_groups s' = physical_groups raw /\
                n_num_nodes (nodes s') = n_num_nodes (nodes raw) /\
                n_min (nodes s') = n_min (nodes raw) /\ n_max (nodes s') = n_max (nodes raw) /\
                e_num_elements (elements s') = e_num_elements (elements raw) /\ entities s' = entities raw /\
                e_min (elements s') = e_min (elements raw) /\ e_max (elements s') = e_max (elements raw) /\
                (node_data s' = node_data raw /\ element_data s' = element_data raw /\
                 element_node_data s' = element_node_data raw) /\
                (ns_version s', curves s', patches s') = (ns_version raw, curves raw, patches raw))
      by (rewrite ES; repeat split).
    destruct G as (G1 & G2 & G3 & G4 & G5 & G6 & G7 & G8 & G9 & (G10 & G11 & G12) & G13).
    clear ES. split.
    + congruence.
    + rewrite G2, F5, Q2. reflexivity.
    + congruence.
    + rewrite G3, (iv_num_nodes c raw HI), P2. unfold nodes_22. rewrite zlen_map, <- (ok22_num_nodes _ _ _ H).
      apply to_size_id. destruct (Z.eq_dec (n_num_nodes (nodes s)) 0) as [->|N]; [unfold two64; lia|].
      pose proof (ns_data _ _ _ (ok22_nodes _ _ _ H N)) as [X _]. change sz_double with 8 in X. rewrite PD8 in X.
      pose proof (zlen_nonneg _ (mesh_nodes (nodes s))). rewrite (ok22_num_nodes _ _ _ H) in *. unfold two64. lia.
    + congruence.
    + rewrite G6, F2. specialize (P4 []). unfold counted in P4. rewrite AL, AZ in P4. destruct a.
      * change (e_num_elements (elements (base22 s))) with 0 in P4. rewrite P4, Z.add_0_l. apply to_size_id.
        destruct (Z.eq_dec (e_num_elements (elements s)) 0) as [->|N]; [unfold two64; lia|].
        pose proof (es_mem _ _ _ (ok22_elements _ _ _ H N)) as [X _]. change sz_ElementBlock with 48 in X. rewrite PD48 in X.
        pose proof (zlen_nonneg _ (mesh_elements (elements s))). rewrite (ok22_num_elements _ _ _ H) in *. unfold two64. lia.
      * apply P4. reflexivity.
    + rewrite G7, F3. exact HEN.
    + rewrite G10, G11, G12. exact F6.
    + rewrite G13. exact F7.
    + exact R4.
    + exact R2.
    + exact R3.
    + exact R5.
    + intros bk t Hb Ht. rewrite <- P3. exact (R6 bk t Hb Ht).
    + exact R9.
    + exact R8.
    + apply R0. eapply Forall_impl; [|exact (iv_one c raw HI)]. cbn beta. intros x ->. lia.
    + exact R10.
    + intro N. rewrite G4, G5. destruct BND as [(X & _)|(n1 & n2 & I1 & I2 & E1 & E2 & A)]; [congruence|].
      split; [exists n1; auto|]. split; [exists n2; auto|exact A].
    + intros N Q. rewrite G8, G9, F2.
      assert (QR : Forall (fun r => 0 <= er_id r <= INT_MAX) (all_recs (parts_of a s))).
      { rewrite <- AR in Q. apply Forall_forall. intros r Hr. rewrite Forall_forall in Q.
          assert (RO : rec_ok r).
          { destruct AC as [X|X]; [rewrite X in Hr; destruct Hr|]. rewrite X in Hr.
            destruct (Z.eq_dec (e_num_elements (elements s)) 0) as [Z0|Z0].
            - rewrite Z0, X in AZ. destruct (mesh_recs (elements s)) as [|y l]; [destruct Hr|].
              rewrite zlen_cons in AZ. pose proof (zlen_nonneg _ l). lia.
            - pose proof (mesh_recs_ok c a _ (ok22_elements _ _ _ H Z0)) as RO. rewrite Forall_forall in RO.
              apply (RO r Hr). }
          specialize (Q (rec_element r) (in_map rec_element _ _ Hr)). cbn [rec_element el_tag] in Q.
          destruct RO as [[U1 U2] _ _ _]. unfold INT_MIN, INT_MAX in *.
          destruct (Z.le_gt_cases 0 (er_id r)) as [V|V]; [lia|].
          unfold to_size in Q. rewrite <- (Z.mod_unique (er_id r) two64 (-1) (er_id r + two64)) in Q; unfold two64 in *; lia.
      }
      assert (QE : map er_id (all_recs (parts_of a s)) = map el_tag (elements_22 s)).
      { rewrite <- AR, map_map. apply map_ext_in. intros r Hr. cbn [rec_element el_tag]. symmetry. apply to_size_id.
        rewrite Forall_forall in QR. specialize (QR r Hr). unfold INT_MAX, two64 in *. lia. }
      destruct (P5 []) as [[_ X]|(_ & _ & L1 & G1')].
      * left. split; reflexivity.
      * constructor.
      * exact QR.
      * exfalso. apply N. cbn [app] in X. rewrite <- AR. destruct (all_recs (parts_of a s)); [reflexivity|discriminate].
      * cbn [app] in *. rewrite QE in L1, G1'.
        assert (SZ : Forall size_ok (map el_tag (elements_22 s))).
        { apply Forall_forall. intros x Hx. apply in_map_iff in Hx. destruct Hx as (y & <- & Hy).
          rewrite Forall_forall in Q. specialize (Q y Hy). unfold size_ok, INT_MAX, two64 in *. lia. }
        assert (NE : map el_tag (elements_22 s) <> []) by (intro X; apply map_eq_nil in X; congruence).
        pose proof (least_size_in _ _ SZ NE L1) as IL. pose proof (greatest_size_in _ _ SZ NE G1') as IG.
        apply in_map_iff in IL, IG. destruct IL as (e1 & E1 & I1). destruct IG as (e2 & E2 & I2).
        split; [exists e1; auto|]. split; [exists e2; auto|]. intros x Hx.
        destruct L1 as (_ & _ & L1). destruct G1' as (_ & _ & G1'). rewrite Forall_forall in L1, G1'.
        assert (IX : In (el_tag x) (map el_tag (elements_22 s))) by (apply in_map; exact Hx).
        split; [exact (L1 _ IX)|exact (G1' _ IX)].
    + intro X0.
      assert (N00 : n_num_nodes (nodes s) = 0).
      { rewrite (ok22_num_nodes _ _ _ H). unfold nodes_22 in X0. apply map_eq_nil in X0. rewrite X0. reflexivity. }
      rewrite P2, X0 in R1. rewrite (N0 N00) in *.
      assert (B0 : n_blocks (nodes s') = []).
      { destruct (n_blocks (nodes s')) as [|b1 bl] eqn:EB; [reflexivity|]. exfalso. unfold mesh_nodes in R1.
        rewrite EB in R1. cbn [flat_map] in R1. apply app_eq_nil in R1. destruct R1 as [R1 _].
        inversion R3 as [|? ? NT _]; subst. unfold block_nodes in R1.
        destruct (nb_tags b1); [congruence|discriminate]. }
      rewrite B0 in R4. destruct (nodes s') as [q1 q2 q3 q4 q5]. cbn [n_num_blocks n_num_nodes n_min n_max n_blocks n_default] in *.
      rewrite R4, G3, G4, G5, B0. reflexivity.
    + intro X0.
      assert (N00 : e_num_elements (elements s) = 0).
      { rewrite (ok22_num_elements _ _ _ H). unfold elements_22 in X0. apply map_eq_nil in X0. rewrite X0. reflexivity. }
      assert (ED : elements raw = e_default).
      { rewrite F2. unfold mid22, elements_step. rewrite N00. cbn [Z.eqb].
        destruct (nodes_step_rest a s (base22 s)) as (_ & _ & ->). reflexivity. }
      rewrite P3, X0 in R7. rewrite ED in *.
      assert (B0 : e_blocks (elements s') = []).
      { assert (R0' := R0 (Forall_nil _)).
        destruct (e_blocks (elements s')) as [|b1 bl] eqn:EB; [reflexivity|]. exfalso. unfold mesh_elements in R7.
        rewrite EB in R7. cbn [flat_map] in R7. apply app_eq_nil in R7. destruct R7 as [R7 _].
        inversion R0' as [|? ? NT _]; inversion R8 as [|? ? [_ _ _ (n & Hn & _) _] _]; subst. unfold block_elements in R7.
        rewrite Hn in R7. apply map_eq_nil in R7. destruct (Z.to_nat (eb_num b1)) eqn:EZ; [lia|discriminate]. }
      rewrite B0 in R9. destruct (elements s') as [q1 q2 q3 q4 q5]. cbn [e_num_blocks e_num_elements e_min e_max e_blocks e_default] in *.
      rewrite R9, G6, G8, G9, B0. reflexivity.
  - exfalso. apply X. intros e t He Ht. rewrite P3 in He.
    destruct (refs_22 c a s H e t He Ht) as (n1 & n2 & I1 & I2 & B).
    destruct BND as [(Y & _)|(m1 & m2 & _ & _ & E1 & E2 & A)]; [rewrite Y in I1; destruct I1|].
    pose proof (A n1 I1). pose proof (A n2 I2). lia.
Qed.

End Printed.
