(** Reading the text of 2.2 sections and files. *)

From Verif Require Import Model.LoadMsh Spec.Text22 Spec.Steps Spec.Files22 Proofs.BytesP Proofs.RtBase
  Proofs.WriteP Proofs.RtStep Proofs.Compose Proofs.Rt41 Proofs.ElemP Proofs.TriP Proofs.PostP Proofs.Load22P
  Proofs.File22P Proofs.EntP Model.Save.

Ltac Zify.zify_post_hook ::= idtac.

(** ** Layout *)

Lemma laid_cons_inv : forall w l t, laid_out (w :: l) t ->
  exists sep t', ws sep /\ sep <> [] /\ t = w ++ sep ++ t' /\ laid_out l t'.
Proof. intros w l t H. inversion H; subst. exists sep, t0. auto. Qed.

Lemma laid_app_inv : forall a b t, laid_out (a ++ b) t ->
  exists ta tb, t = ta ++ tb /\ laid_out a ta /\ laid_out b tb.
Proof.
  induction a as [|w a IH]; intros b t H.
  - exists [], t. repeat split; [constructor|exact H].
  - cbn [app] in H. apply laid_cons_inv in H. destruct H as (sep & t' & H1 & H2 & -> & H3).
    destruct (IH b t' H3) as (ta & tb & -> & H4 & H5). exists (w ++ sep ++ ta), tb.
    rewrite <- !app_assoc. repeat split; [constructor; assumption|exact H5].
Qed.

Lemma laid_spaced : forall A (show : A -> bytes) l t, laid_out (map show l) t -> spaced show l t.
Proof.
  induction l as [|x l IH]; intros t H.
  - inversion H. constructor.
  - cbn [map] in H. apply laid_cons_inv in H. destruct H as (sep & t' & H1 & H2 & -> & H3).
    constructor; auto.
Qed.

Lemma EX_frame : forall A (r : M A) t v p u, EX r t v p -> EX r (t ++ u) v (p ++ u).
Proof.
  intros A r t v p u H rest Hr. rewrite <- !app_assoc. apply H.
  destruct u; [exact Hr|discriminate].
Qed.

Lemma fits_le : forall c sz a b, 0 < sz -> a <= b -> fits c sz b -> fits c sz a.
Proof.
  intros c sz a b Hs H [H1 H2]. split; [lia|].
  pose proof (Z.mul_le_mono_nonneg_r a b sz). lia.
Qed.

Lemma hold_fits : forall A c sz n (old : list A), fits c sz n -> can_hold c sz n old = Ok tt.
Proof.
  intros A c sz n old [H1 H2]. unfold can_hold.
  replace (PTRDIFF_MAX / sz <? n) with false by (symmetry; apply Z.ltb_ge; exact H1).
  destruct (n <=? zlen old); [reflexivity|].
  replace (mem c <? n * sz) with false by (symmetry; apply Z.ltb_ge; exact H2). reflexivity.
Qed.

(** ** Nodes *)

Definition row_of (n : node) : Z * list dbl := (n_tag n, [n_x n; n_y n; n_z n]).

Lemma row_node_of : forall l, map row_node (map row_of l) = l.
Proof.
  intro l. rewrite map_map. rewrite <- (map_id l) at 2. apply map_ext. intros []; reflexivity.
Qed.

Lemma RT_dbl : forall B old w x sep (f : Z -> M B) t b, denotes w x -> ws sep -> sep <> [] ->
  RT (f x) t b -> RT (bind (op (rd_double old)) f) (w ++ sep ++ t) b.
Proof.
  intros. rewrite app_assoc. eapply RT_bind; [|eassumption].
  apply rd_num_RT; assumption.
Qed.

Lemma node_rows_RT : forall c l wds, node_words l wds -> forall t (xs : list unit),
  laid_out wds t -> Forall (fun n => size_ok (n_tag n)) l -> List.length xs = List.length l ->
  RT (mapM (v22_node_ascii c) xs) t (map row_of l).
Proof.
  intros c l wds H. induction H as [|n l wx wy wz wds Hx Hy Hz H IH]; intros t xs HL HT HN.
  - destruct xs; [|discriminate]. inversion HL; subst. apply RT_ret.
  - destruct xs as [|x xs]; [discriminate|]. inversion HT as [|? ? Ht HT']; subst.
    apply laid_cons_inv in HL. destruct HL as (s1 & t1 & W1 & N1 & -> & HL).
    apply laid_cons_inv in HL. destruct HL as (s2 & t2 & W2 & N2 & -> & HL).
    apply laid_cons_inv in HL. destruct HL as (s3 & t3 & W3 & N3 & -> & HL).
    apply laid_cons_inv in HL. destruct HL as (s4 & t4 & W4 & N4 & -> & HL).
    cbn [mapM map].
    replace (show_Z (n_tag n) ++ s1 ++ wx ++ s2 ++ wy ++ s3 ++ wz ++ s4 ++ t4)
      with ((show_Z (n_tag n) ++ s1 ++ wx ++ s2 ++ wy ++ s3 ++ wz ++ s4 ++ []) ++ t4)
      by (rewrite <- !app_assoc; reflexivity).
    eapply RT_bind.
    + unfold v22_node_ascii. eapply RT_size; [exact Ht|exact W1|exact N1|].
      eapply RT_dbl; [exact Hx|exact W2|exact N2|].
      eapply RT_dbl; [exact Hy|exact W3|exact N3|].
      eapply RT_dbl; [exact Hz|exact W4|exact N4|].
      eapply RT_bind0; [intros; apply assert_good_ok; assumption|]. apply RT_ret.
    + eapply RT_map; [|intros; reflexivity]. apply IH; [exact HL|exact HT'|]. injection HN. auto.
Qed.

Definition nodes_mem (c : cfg) (n : Nodes) (l : list node) : Prop :=
  fits c sz_NodeBlock (zlen (n_blocks n) + 1) /\ fits c sz_double (3 * zlen l).

Lemma resizes_ok : forall c k, 0 <= k -> fits c sz_double (3 * k) -> v22_resizes c k = Ok tt.
Proof.
  intros c k Hk H. unfold v22_resizes. change sz_size with sz_double.
  rewrite hold_fits by (apply (fits_le _ _ _ (3 * k)); [reflexivity|lia|exact H]). cbn [obind].
  destruct H as [H1 H2]. change sz_double with 8 in *. rewrite PD8 in H1.
  apply hold_fits. rewrite to_size_id by (unfold two64; lia). split; [rewrite PD8; lia|].
  change sz_double with 8. lia.
Qed.

Definition nodes_after (n : Nodes) (l : list node) : Nodes :=
  v22_add_block n (zlen l) (map row_of l) (n_blocks n).

Lemma nodes_mem_size : forall c n l, nodes_mem c n l -> size_ok (zlen l).
Proof.
  intros c n l [_ [H _]]. change sz_double with 8 in H. rewrite PD8 in H.
  pose proof (zlen_nonneg _ l). unfold size_ok, two64. lia.
Qed.

Lemma load_nodes_a : forall c n l t, nodes_ascii l t -> Forall (fun n => size_ok (n_tag n)) l ->
  nodes_mem c n l -> RT (v22_load_nodes_ascii c n) t (nodes_after n l).
Proof.
  intros c n l t (wds & HW & HL) HT HM. pose proof (nodes_mem_size _ _ _ HM) as HS. destruct HM as [M1 M2].
  apply laid_cons_inv in HL. destruct HL as (sep & t' & W & N & -> & HL).
  unfold v22_load_nodes_ascii.
  eapply RT_bind0; [intros; apply lift_ok; apply hold_fits; exact M1|].
  eapply RT_size; [exact HS|exact W|exact N|].
  eapply RT_bind0; [intros; apply assert_good_ok; assumption|].
  eapply RT_bind0; [intros; apply lift_ok; apply resizes_ok; [apply zlen_nonneg|exact M2]|].
  eapply RT_last; [|apply RT_ret].
  apply (node_rows_RT c l wds HW); [exact HL|exact HT|].
  rewrite repeat_length. unfold zlen. lia.
Qed.

Definition node_int (n : node) : Prop :=
  0 <= n_tag n <= INT_MAX /\ size_ok (n_x n) /\ size_ok (n_y n) /\ size_ok (n_z n).

Lemma node_binary_RB : forall c u n, node_int n -> RB (v22_node_binary c u) (node_bytes n) (row_of n).
Proof.
  intros c u n (H1 & H2 & H3 & H4). unfold v22_node_binary, node_bytes.
  eapply RB_bind0; [intros; apply assert_good_ok; assumption|].
  eapply RB_int_opt; [unfold int_ok, INT_MIN in *; lia|].
  eapply RB_bind0; [intros; apply use_ok|].
  replace (le 8 (n_x n) ++ le 8 (n_y n) ++ le 8 (n_z n))
    with (List.concat (map (le 8) [n_x n; n_y n; n_z n]) ++ [])
    by (cbn [map List.concat]; rewrite !app_nil_r; reflexivity).
  eapply RB_bind.
  - apply rd_raw_array_RB; [reflexivity|]. intros o v Hv. apply rd_raw_double_RB.
    cbn [In] in Hv. destruct Hv as [<-|[<-|[<-|[]]]]; assumption.
  - unfold row_of. rewrite to_size_id by (unfold INT_MAX, two64 in *; lia). apply RB_ret.
Qed.

Lemma load_nodes_b : forall c n l u, Forall node_int l -> nodes_mem c n l -> ws u ->
  EX (v22_load_nodes_binary c n) (u ++ show_Z (zlen l) ++ endl ++ List.concat (map node_bytes l))
     (nodes_after n l) [].
Proof.
  intros c n l u HT HM Hu. pose proof (nodes_mem_size _ _ _ HM) as HS. destruct HM as [M1 M2].
  unfold v22_load_nodes_binary.
  eapply EX_bind0; [intros; apply lift_ok; apply hold_fits; exact M1|].
  rewrite (app_assoc (show_Z _)), app_assoc.
  eapply EX_bind; [apply rd_size_RTe; [exact HS|exact Hu]|].
  eapply EX_bind0; [intros; apply assert_good_ok; assumption|].
  eapply EX_bind0; [intros; apply lift_ok; apply resizes_ok; [apply zlen_nonneg|exact M2]|].
  apply eat1_then. eapply RB_last; [|apply RB_ret].
  apply mapM_RB'; [rewrite repeat_length; unfold zlen; lia|].
  intros x v _ Hv. rewrite Forall_forall in HT. apply node_binary_RB. auto.
Qed.

Lemma nodes_after_appended : forall c n l, Forall (fun n => size_ok (n_tag n) /\ size_ok (n_x n) /\
    size_ok (n_y n) /\ size_ok (n_z n)) l ->
  nodes_mem c n l -> nodes_appended n (nodes_after n l) l.
Proof.
  intros c n l H [[M1 _] [M2 _]]. rewrite <- (row_node_of l) at 2. apply v22_add_block_spec.
  - apply Forall_forall. intros r Hr. apply in_map_iff in Hr. destruct Hr as (x & <- & Hx).
    rewrite Forall_forall in H. destruct (H x Hx) as (H1 & H2 & H3 & H4).
    split; [exact H1|]. split; [reflexivity|]. repeat (constructor; [assumption|]). constructor.
  - apply zlen_map.
  - rewrite Z.mul_comm. exact M2.
  - exact M1.
Qed.

(** ** Elements *)

Definition rec_mem (c : cfg) (r : el_rec) : Prop :=
  fits c sz_int (zlen (er_tags r)) /\ fits c sz_int (zlen (er_nodes r)).

Definition va_after (st : va) (r : el_rec) : va :=
  {| va_num := Some (er_id r); va_type := Some (er_type r); va_ntags := Some (zlen (er_tags r));
     va_tags := er_tags r; va_ids := er_nodes r;
     va_min := Z.min (va_min st) (to_size (er_id r)); va_max := Z.max (va_max st) (to_size (er_id r));
     va_blocks := va_blocks st ++ [rec_block r]; va_pm := add_rec (va_pm st) r |}.

Lemma rec_dim_ok : forall r, rec_ok r -> get_element_dim (er_type r) = Ok (rec_dim r).
Proof.
  intros r H. destruct (nodes_dim _ _ (ro_type r H)) as (d & Hd).
  destruct (tables (er_type r)) as [_ E]. rewrite E, Hd. unfold rec_dim. rewrite Hd. reflexivity.
Qed.

Lemma element_a : forall c st r t, laid_out (rec_words r) t -> rec_ok r -> zlen (er_tags r) <= INT_MAX ->
  rec_mem c r -> fits c sz_ElementBlock (zlen (va_blocks st) + 1) ->
  RT (v22_element_ascii c st) t (va_after st r).
Proof.
  intros c st r t HL HR HN [M1 M2] M3. pose proof HR as [R1 R2 R3 R4]. unfold rec_words in HL.
  apply laid_cons_inv in HL. destruct HL as (s1 & t1 & W1 & N1 & -> & HL).
  apply laid_cons_inv in HL. destruct HL as (s2 & t2 & W2 & N2 & -> & HL).
  apply laid_cons_inv in HL. destruct HL as (s3 & t3 & W3 & N3 & -> & HL).
  apply laid_app_inv in HL. destruct HL as (ta & tb & -> & HA & HB).
  apply laid_spaced in HA, HB. pose proof (zlen_nonneg _ (er_tags r)) as NT.
  destruct (gmsh_nodes_spec _ _ R2) as (E & En & Et).
  unfold v22_element_ascii.
  eapply RT_int_opt; [exact R1|exact W1|exact N1|].
  eapply RT_int_opt; [unfold int_ok, INT_MIN, INT_MAX; lia|exact W2|exact N2|].
  eapply RT_int_opt; [unfold int_ok, INT_MIN; lia|exact W3|exact N3|].
  eapply RT_bind0; [intros; apply use_ok|].
  rewrite to_size_id by (unfold INT_MAX, two64 in *; lia).
  destruct (fits_resize _ c sz_int 0 (zlen (er_tags r)) (va_tags st) ltac:(reflexivity) NT M1) as (v1 & E1 & L1).
  eapply RT_bind0; [intros; apply lift_ok; exact E1|].
  eapply RT_bind; [apply (mapM_ints _ _ _ HA R3); apply zlen_length; exact L1|].
  eapply RT_bind0; [intros; apply use_ok|].
  eapply RT_bind0; [intros; apply lift_ok; exact E|].
  destruct (fits_resize _ c sz_int 0 (zlen (er_nodes r)) (va_ids st) ltac:(reflexivity) ltac:(lia) M2) as (v2 & E2 & L2).
  eapply RT_bind0; [intros; apply lift_ok; exact E2|].
  eapply RT_last; [apply (mapM_ints _ _ _ HB R4); apply zlen_length; exact L2|].
  eapply RT_bind0; [intros; apply use_ok|].
  eapply RT_bind0; [intros; apply lift_ok; apply rec_dim_ok; exact HR|].
  rewrite classify_rec. fold (rec_block r).
  eapply RT_bind0; [intros; apply lift_ok; unfold emplace_back; rewrite hold_fits by exact M3; reflexivity|].
  apply RT_ret.
Qed.

Lemma va_blocks_after : forall recs st, va_blocks (fold_left va_after recs st) = va_blocks st ++ map rec_block recs.
Proof.
  induction recs as [|r recs IH]; intro st; cbn [fold_left map]; [rewrite app_nil_r; reflexivity|].
  rewrite IH. cbn [va_after va_blocks]. rewrite <- app_assoc. reflexivity.
Qed.

Lemma elements_loop_a : forall c recs st t, laid_out (flat_map rec_words recs) t -> Forall rec_ok recs ->
  Forall (fun r => zlen (er_tags r) <= INT_MAX) recs -> Forall (rec_mem c) recs ->
  fits c sz_ElementBlock (zlen (va_blocks st) + zlen recs) ->
  RT (iterM (List.length recs) (v22_element_ascii c) st) t (fold_left va_after recs st).
Proof.
  intros c recs. induction recs as [|r recs IH]; intros st t HL HR HN HM HF.
  - inversion HL; subst. apply RT_ret.
  - cbn [flat_map] in HL. apply laid_app_inv in HL. destruct HL as (ta & tb & -> & HA & HB).
    inversion HR; inversion HN; inversion HM; subst. cbn [List.length iterM fold_left].
    rewrite zlen_cons in HF. pose proof (zlen_nonneg _ recs).
    eapply RT_bind.
    + apply element_a; try eassumption. eapply fits_le; [| |exact HF]; [reflexivity|lia].
    + apply IH; try assumption. cbn [va_after va_blocks]. rewrite zlen_app.
      eapply fits_le; [| |exact HF]; [reflexivity|]. change (zlen [rec_block r]) with 1. lia.
Qed.

(** State of the loops after the records. *)
Lemma va_after_inv : forall recs st old mn mx, Forall rec_ok recs ->
  va_min st = mn -> va_max st = mx -> va_blocks st = old -> va_pm st = pmaps_empty ->
  let st' := fold_left va_after recs st in
  va_blocks st' = old ++ map rec_block recs /\
  va_pm st' = fold_left add_rec recs pmaps_empty /\
  va_min st' = fold_left Z.min (map to_size (map er_id recs)) mn /\
  va_max st' = fold_left Z.max (map to_size (map er_id recs)) mx.
Proof.
  intros recs st old mn mx _ <- <- <- E. cbv zeta. split; [apply va_blocks_after|].
  rewrite <- E. clear E. revert st. induction recs as [|r recs IH]; intro st; [repeat split|].
  cbn [fold_left map]. destruct (IH (va_after st r)) as (H1 & H2 & H3). rewrite H1, H2, H3. repeat split.
Qed.

Definition elements_after (ascii : bool) (e : Elements) (en : Entities) (recs : list el_rec) : Elements * Entities :=
  let blocks := e_blocks e ++ map rec_block recs in
  ((if ascii then
      {| e_num_blocks := to_size (e_num_blocks e + zlen recs);
         e_num_elements := to_size (e_num_elements e + zlen recs);
         e_min := fold_left Z.min (map to_size (map er_id recs)) (e_min e);
         e_max := fold_left Z.max (map to_size (map er_id recs)) (e_max e);
         e_blocks := blocks |}
    else
      {| e_num_blocks := zlen blocks;
         e_num_elements := zlen recs;
         e_min := Z.min (e_min e) (to_size (fold_left Z.min (map er_id recs) INT_MAX));
         e_max := Z.max (e_max e) (to_size (fold_left Z.max (map er_id recs) 0));
         e_blocks := blocks |}),
   create_all (fold_left add_rec recs pmaps_empty) en).

Record recs_fit (c : cfg) (e : Elements) (recs : list el_rec) : Prop := {
  rf_ok : Forall rec_ok recs;
  rf_tags : Forall (fun r => zlen (er_tags r) <= INT_MAX) recs;
  rf_mem : Forall (rec_mem c) recs;
  rf_blocks : fits c sz_ElementBlock (zlen (e_blocks e) + zlen recs) }.

Lemma recs_size : forall c e recs, recs_fit c e recs -> size_ok (zlen recs).
Proof.
  intros c e recs [_ _ _ [H _]]. change sz_ElementBlock with 48 in H. rewrite PD48 in H.
  pose proof (zlen_nonneg _ recs). pose proof (zlen_nonneg _ (e_blocks e)). unfold size_ok, two64. lia.
Qed.

Lemma load_elements_a : forall c e en recs t, elements_ascii recs t -> recs_fit c e recs ->
  RT (v22_load_elements_ascii c e en) t (elements_after true e en recs).
Proof.
  intros c e en recs t HL HF. pose proof (recs_size _ _ _ HF) as HS. destruct HF as [F1 F2 F3 F4].
  unfold elements_ascii in HL. apply laid_cons_inv in HL. destruct HL as (sep & t' & W & N & -> & HL).
  unfold v22_load_elements_ascii. eapply RT_size_opt; [exact HS|exact W|exact N|].
  eapply RT_bind0; [intros; apply use_ok|].
  replace (Z.to_nat (zlen recs)) with (List.length recs) by (unfold zlen; lia).
  match goal with |- context [iterM _ _ ?s] => set (st := s) end.
  eapply RT_last; [apply (elements_loop_a c recs st t' HL F1 F2 F3); exact F4|].
  destruct (va_after_inv recs st (e_blocks e) (e_min e) (e_max e) F1 eq_refl eq_refl eq_refl eq_refl)
    as (H1 & H2 & H3 & H4).
  rewrite H1, H2, H3, H4. apply RT_ret.
Qed.

(** Binary. *)

Definition vb_after (st : vb) (r : el_rec) : vb :=
  {| vb_tags := er_tags r; vb_ids := er_nodes r;
     vb_min := Z.min (vb_min st) (er_id r); vb_max := Z.max (vb_max st) (er_id r);
     vb_done := vb_done st + 1;
     vb_blocks := vb_blocks st ++ [rec_block r]; vb_pm := add_rec (vb_pm st) r |}.

Lemma element_b : forall c N id0 st r nt, rec_ok r -> zlen (er_tags r) = nt -> 4 * nt <= INT_MAX ->
  zlen (vb_tags st) = nt -> zlen (vb_ids st) = zlen (er_nodes r) -> vb_done st + 1 <= N ->
  fits c sz_ElementBlock (zlen (vb_blocks st) + 1) ->
  RB (v22_element_binary c (er_type r) nt N (id0, st)) (rec_bytes r) (Some (er_id r), vb_after st r).
Proof.
  intros c N id0 st r nt HR H1 H2 H3 H4 HN HF. pose proof HR as [R1 R2 R3 R4].
  unfold v22_element_binary, rec_bytes, ints.
  eapply RB_int_opt; [exact R1|].
  replace (INT_MAX <? 4 * nt) with false by (symmetry; apply Z.ltb_ge; exact H2).
  eapply RB_bind0; [intros; reflexivity|].
  eapply RB_ints; [apply zlen_length; congruence|exact R3|].
  rewrite <- (app_nil_r (List.concat (map (le 4) (er_nodes r)))).
  eapply RB_ints; [apply zlen_length; exact H4|exact R4|].
  eapply RB_bind0; [intros; apply use_ok|].
  eapply RB_bind0; [intros; apply lift_ok; apply rec_dim_ok; exact HR|].
  rewrite classify_rec. fold (rec_block r).
  eapply RB_bind0; [intros; apply lift_ok; unfold emplace_back; rewrite hold_fits by exact HF; reflexivity|].
  cbv zeta. replace (N <? vb_done st + 1) with false by (symmetry; apply Z.ltb_ge; exact HN).
  apply RB_ret.
Qed.

Lemma elements_loop_b : forall c N typ nt n recs id0 st, Forall rec_ok recs ->
  Forall (fun r => er_type r = typ /\ zlen (er_tags r) = nt) recs -> 4 * nt <= INT_MAX ->
  gmsh_nodes typ = Some n ->
  zlen (vb_tags st) = nt -> zlen (vb_ids st) = n -> vb_done st + zlen recs <= N ->
  fits c sz_ElementBlock (zlen (vb_blocks st) + zlen recs) ->
  exists id1, RB (iterM (List.length recs) (v22_element_binary c typ nt N) (id0, st))
     (List.concat (map rec_bytes recs)) (id1, fold_left vb_after recs st).
Proof.
  intros c N typ nt n recs. induction recs as [|r recs IH]; intros id0 st HR HT H4 Hn L1 L2 HN HF.
  - exists id0. apply RB_ret.
  - inversion HR as [|? ? R HR']; inversion HT as [|? ? [T1 T2] HT']; subst.
    rewrite zlen_cons in HN, HF. pose proof (zlen_nonneg _ recs).
    assert (EN : Some (zlen (er_nodes r)) = Some (zlen (vb_ids st))) by (rewrite <- Hn; symmetry; apply R).
    injection EN as EN.
    destruct (IH (Some (er_id r)) (vb_after st r)) as (id1 & HB); cbn [vb_after vb_tags vb_ids vb_done vb_blocks];
      try assumption.
    + lia.
    + rewrite zlen_app. change (zlen [rec_block r]) with 1.
      eapply fits_le; [| |exact HF]; [reflexivity|lia].
    + exists id1. cbn [List.length iterM fold_left map List.concat].
      eapply RB_bind; [|exact HB].
      apply element_b; try assumption; try reflexivity; try lia.
      eapply fits_le; [| |exact HF]; [reflexivity|lia].
Qed.

Lemma vb_done_after : forall recs st, vb_done (fold_left vb_after recs st) = vb_done st + zlen recs.
Proof.
  induction recs as [|r recs IH]; intro st; cbn [fold_left]; [rewrite zlen_nil; lia|].
  rewrite IH, zlen_cons. cbn [vb_after vb_done]. lia.
Qed.

Lemma vb_blocks_after : forall recs st, vb_blocks (fold_left vb_after recs st) = vb_blocks st ++ map rec_block recs.
Proof.
  induction recs as [|r recs IH]; intro st; cbn [fold_left map]; [rewrite app_nil_r; reflexivity|].
  rewrite IH. cbn [vb_after vb_blocks]. rewrite <- app_assoc. reflexivity.
Qed.

(** What the loops leave, whatever scratch vectors they start with. *)
Definition same_vb (a b : vb) : Prop :=
  vb_min a = vb_min b /\ vb_max a = vb_max b /\ vb_done a = vb_done b /\
  vb_blocks a = vb_blocks b /\ vb_pm a = vb_pm b.

Lemma same_after : forall recs a b, same_vb a b -> same_vb (fold_left vb_after recs a) (fold_left vb_after recs b).
Proof.
  induction recs as [|r recs IH]; intros a b H; [exact H|]. cbn [fold_left]. apply IH.
  destruct H as (H1 & H2 & H3 & H4 & H5). unfold same_vb, vb_after; cbn. rewrite H1, H2, H3, H4, H5. auto.
Qed.

Definition block_mem (c : cfg) (b : block22) : Prop :=
  fits c sz_int (bl_ntags b) /\ forall n, gmsh_nodes (bl_type b) = Some n -> fits c sz_int n.

Lemma int_num : forall A (l : list A), zlen l <= INT_MAX -> int_ok (zlen l) /\ to_size (zlen l) = zlen l.
Proof.
  intros A l H. pose proof (zlen_nonneg _ l). unfold int_ok, INT_MIN. split; [lia|].
  apply to_size_id. unfold INT_MAX, two64 in *. lia.
Qed.

(** All blocks; the last one is not empty. *)
Lemma blocks_loop_b : forall c N bs fuel st, (List.length bs < fuel)%nat ->
  Forall block22_ok bs -> Forall (fun b => Forall rec_ok (bl_recs b)) bs -> Forall (block_mem c) bs ->
  (bs <> [] -> bl_recs (last bs {| bl_type := 0; bl_ntags := 0; bl_recs := [] |}) <> []) ->
  vb_done st + zlen (flat_map bl_recs bs) = N ->
  fits c sz_ElementBlock (zlen (vb_blocks st) + zlen (flat_map bl_recs bs)) ->
  exists st', same_vb st' (fold_left vb_after (flat_map bl_recs bs) st) /\
    RB (v22_elements_loop fuel c N st) (List.concat (map block22_bytes bs)) st'.
Proof.
  intros c N bs. induction bs as [|b bs IH]; intros fuel st HF HO HR HM HL HN HB;
    (destruct fuel as [|fuel]; [cbn [List.length] in HF; lia|]); cbn [v22_elements_loop].
  - cbn [flat_map] in HN. rewrite zlen_nil in HN.
    replace (vb_done st =? N) with true by (symmetry; apply Z.eqb_eq; lia).
    exists st. split; [repeat split|]. apply RB_ret.
  - inversion HO as [|? ? Hb HO']; inversion HR as [|? ? Rb HR']; inversion HM as [|? ? [M1 M2] HM']; subst.
    cbn [flat_map] in *. rewrite zlen_app in *. pose proof (zlen_nonneg _ (bl_recs b)) as P1.
    pose proof (zlen_nonneg _ (flat_map bl_recs bs)) as P2.
    assert (POS : 0 < zlen (bl_recs b) + zlen (flat_map bl_recs bs)).
    { specialize (HL ltac:(discriminate)).
      assert (IN : In (last (b :: bs) {| bl_type := 0; bl_ntags := 0; bl_recs := [] |}) (b :: bs)).
      { clear. revert b. induction bs as [|b' bs IH]; intro b; [left; reflexivity|].
        right. apply IH. }
      destruct (bl_recs (last (b :: bs) _)) as [|r rs] eqn:EL; [congruence|].
      assert (IR : In r (flat_map bl_recs (b :: bs))).
      { apply in_flat_map. exists (last (b :: bs) {| bl_type := 0; bl_ntags := 0; bl_recs := [] |}).
        split; [exact IN|]. rewrite EL. left. reflexivity. }
      cbn [flat_map] in IR. rewrite <- zlen_app. destruct (bl_recs b ++ flat_map bl_recs bs); [destruct IR|].
      rewrite zlen_cons. pose proof (zlen_nonneg _ l). lia. }
    set (N := vb_done st + (zlen (bl_recs b) + zlen (flat_map bl_recs bs))) in *.
    replace (vb_done st =? N) with false by (symmetry; apply Z.eqb_neq; lia).
    destruct Hb as [B1 B2 B3 B4]. destruct (gmsh_nodes (bl_type b)) as [n|] eqn:EN; [|congruence].
    destruct (gmsh_nodes_spec _ _ EN) as (E & En & Et).
    destruct (int_num _ (bl_recs b) B3) as [J1 J2].
    assert (K1 : int_ok (bl_ntags b)) by (unfold int_ok, INT_MIN, INT_MAX in *; lia).
    destruct (fits_resize _ c sz_int 0 (bl_ntags b) (vb_tags st) ltac:(reflexivity) ltac:(lia) M1) as (v1 & E1 & L1).
    destruct (fits_resize _ c sz_int 0 n (vb_ids st) ltac:(reflexivity) ltac:(lia) (M2 n eq_refl)) as (v2 & E2 & L2).
    set (st1 := {| vb_tags := v1; vb_ids := v2; vb_min := vb_min st; vb_max := vb_max st;
                   vb_done := vb_done st; vb_blocks := vb_blocks st; vb_pm := vb_pm st |}).
    destruct (elements_loop_b c N (bl_type b) (bl_ntags b) n (bl_recs b) None st1 Rb B2 ltac:(lia) EN L1 L2)
      as (id1 & HI).
    { cbn [st1 vb_done]. lia. }
    { cbn [st1 vb_blocks]. eapply fits_le; [| |exact HB]; [reflexivity|lia]. }
    destruct (IH fuel (fold_left vb_after (bl_recs b) st1)) as (st' & S' & HI').
    { cbn [List.length] in HF. lia. }
    { exact HO'. }
    { exact HR'. }
    { exact HM'. }
    { intro HX. destruct bs as [|b' bs]; [congruence|]. apply HL. discriminate. }
    { rewrite vb_done_after. cbn [st1 vb_done]. lia. }
    { rewrite vb_blocks_after, zlen_app, zlen_map. cbn [st1 vb_blocks].
      eapply fits_le; [| |exact HB]; [reflexivity|lia]. }
    exists st'. split.
    { destruct S' as (S1 & S2 & S3 & S4 & S5). rewrite fold_left_app.
      destruct (same_after (flat_map bl_recs bs) (fold_left vb_after (bl_recs b) st1)
                 (fold_left vb_after (bl_recs b) st)) as (Q1 & Q2 & Q3 & Q4 & Q5).
      { apply same_after. repeat split. }
      repeat split; congruence. }
    cbn [map List.concat]. unfold block22_bytes. rewrite <- !app_assoc.
    eapply RB_int_opt; [unfold int_ok, INT_MIN, INT_MAX; lia|].
    eapply RB_int_opt; [exact J1|].
    eapply RB_int_opt; [exact K1|].
    eapply RB_bind0; [intros; apply use_ok|].
    rewrite to_size_id by (unfold int_ok, INT_MAX, two64 in *; lia).
    eapply RB_bind0; [intros; apply lift_ok; exact E1|].
    eapply RB_bind0; [intros; apply use_ok|].
    eapply RB_bind0; [intros; apply lift_ok; exact E|].
    eapply RB_bind0; [intros; apply lift_ok; exact E2|].
    eapply RB_bind0; [intros; apply use_ok|]. cbv zeta. fold st1.
    rewrite J2. replace (Z.to_nat (Z.min (zlen (bl_recs b)) (N - vb_done st + 1))) with (List.length (bl_recs b))
      by (unfold zlen in *; lia).
    eapply RB_bind; [exact HI|]. exact HI'.
Qed.

Lemma vb_after_inv : forall recs st old, vb_min st = INT_MAX -> vb_max st = 0 -> vb_blocks st = old ->
  vb_pm st = pmaps_empty ->
  let st' := fold_left vb_after recs st in
  vb_blocks st' = old ++ map rec_block recs /\
  vb_pm st' = fold_left add_rec recs pmaps_empty /\
  vb_min st' = fold_left Z.min (map er_id recs) INT_MAX /\
  vb_max st' = fold_left Z.max (map er_id recs) 0.
Proof.
  intros recs st old E1 E2 <- E. cbv zeta. split; [apply vb_blocks_after|].
  rewrite <- E, <- E1, <- E2. clear E E1 E2. revert st. induction recs as [|r recs IH]; intro st; [repeat split|].
  cbn [fold_left map]. destruct (IH (vb_after st r)) as (H1 & H2 & H3). rewrite H1, H2, H3. repeat split.
Qed.

Lemma blocks_length : forall bs, (List.length bs <= List.length (List.concat (map block22_bytes bs)))%nat.
Proof.
  induction bs as [|b bs IH]; [apply Nat.le_refl|]. cbn [map List.concat List.length].
  unfold block22_bytes at 1. rewrite !app_length, !le_length. lia.
Qed.

Record blocks_fit (c : cfg) (e : Elements) (bs : list block22) : Prop := {
  bf_ok : Forall block22_ok bs;
  bf_recs : Forall (fun b => Forall rec_ok (bl_recs b)) bs;
  bf_mem : Forall (block_mem c) bs;
  bf_last : bs <> [] -> bl_recs (last bs {| bl_type := 0; bl_ntags := 0; bl_recs := [] |}) <> [];
  bf_blocks : fits c sz_ElementBlock (zlen (e_blocks e) + zlen (flat_map bl_recs bs)) }.

Lemma load_elements_b : forall c e en bs u, blocks_fit c e bs -> ws u ->
  EX (v22_load_elements_binary c e en)
     (u ++ show_Z (zlen (flat_map bl_recs bs)) ++ endl ++ List.concat (map block22_bytes bs))
     (elements_after false e en (flat_map bl_recs bs)) [].
Proof.
  intros c e en bs u [F1 F2 F3 F4 F5] Hu. set (recs := flat_map bl_recs bs) in *.
  pose proof (zlen_nonneg _ recs) as P. pose proof (zlen_nonneg _ (e_blocks e)) as PE.
  assert (HS : size_ok (zlen recs)).
  { destruct F5 as [F5 _]. change sz_ElementBlock with 48 in F5. rewrite PD48 in F5. unfold size_ok, two64. lia. }
  unfold v22_load_elements_binary.
  rewrite (app_assoc (show_Z _)), app_assoc.
  eapply EX_bind; [apply rd_size_RTe; [exact HS|exact Hu]|].
  eapply EX_bind0.
  { intros; apply lift_ok; apply hold_fits. eapply fits_le; [| |exact F5]; [reflexivity|lia]. }
  apply eat1_then. intros rest Hr. unfold bind. cbn [IStream.rest opened].
  match goal with |- context [v22_elements_loop ?f c ?N ?s] => set (fuel := f); set (st := s) end.
  destruct (blocks_loop_b c (zlen recs) bs fuel st) as (st' & (S1 & S2 & S3 & S4 & S5) & HI); try assumption.
  { unfold fuel. rewrite app_length. pose proof (blocks_length bs). lia. }
  { reflexivity. }
  rewrite (HI rest Hr).
  destruct (vb_after_inv recs st (e_blocks e) eq_refl eq_refl eq_refl eq_refl) as (H1 & H2 & H3 & H4).
  fold recs in S1, S2, S3, S4, S5. rewrite H1 in S4. rewrite H2 in S5. rewrite H3 in S1. rewrite H4 in S2.
  rewrite S1, S2, S4, S5. reflexivity.
Qed.

(** ** Sections *)

Definition part_after (ascii : bool) (spec : MshSpec) (p : part) : MshSpec :=
  match p with
  | NodesPart l => set_nodes (nodes_after (prior_nodes (nodes spec)) l) spec
  | ElementsPart l =>
      let r := elements_after ascii (prior_elements (elements spec)) (entities spec) l in
      set_entities (snd r) (set_elements (fst r) spec)
  end.

Record part_fits (c : cfg) (spec : MshSpec) (p : part) : Prop := {
  pf_nodes : match p with NodesPart l => nodes_mem c (prior_nodes (nodes spec)) l | _ => True end;
  pf_recs : match p with
            | ElementsPart l => Forall (rec_mem c) l /\
                fits c sz_ElementBlock (zlen (e_blocks (elements spec)) + zlen l)
            | _ => True end }.

Lemma nodes_dispatch : forall c ascii spec n, fmt v22s ascii spec ->
  (if ascii then v22_load_nodes_ascii c (prior_nodes (nodes spec)) else v22_load_nodes_binary c (prior_nodes (nodes spec))) = n ->
  dispatch c (str "$Nodes") spec = (n' <- n ;; ret (set_nodes n' spec)).
Proof.
  intros c ascii spec n [Hv Ht] <-. change (dispatch c (str "$Nodes") spec) with (load_nodes c spec).
  unfold load_nodes. rewrite Hv, Ht. change (bytes_eqb v22s v41s) with false. change (bytes_eqb v22s v22s) with true.
  cbv iota. fold (prior_nodes (nodes spec)). rewrite ftype_eqb. reflexivity.
Qed.

Lemma elements_dispatch : forall c ascii spec r, fmt v22s ascii spec ->
  (if ascii then v22_load_elements_ascii c (prior_elements (elements spec)) (entities spec)
   else v22_load_elements_binary c (prior_elements (elements spec)) (entities spec)) = r ->
  dispatch c (str "$Elements") spec = (r' <- r ;; ret (set_entities (snd r') (set_elements (fst r') spec))).
Proof.
  intros c ascii spec n [Hv Ht] <-. change (dispatch c (str "$Elements") spec) with (load_elements c spec).
  unfold load_elements. rewrite Hv, Ht. change (bytes_eqb v22s v41s) with false. change (bytes_eqb v22s v22s) with true.
  cbv iota. fold (prior_elements (elements spec)). rewrite ftype_eqb. reflexivity.
Qed.

Lemma section_text : forall name body tail, (name ++ endl) ++ body ++ (str "$End" ++ tail ++ endl) =
  name ++ [x0a] ++ body ++ (str "$End" ++ tail) ++ [x0a].
Proof. intros. rewrite <- !app_assoc. reflexivity. Qed.

Lemma block_mem_of : forall c b, block22_ok b -> Forall rec_ok (bl_recs b) -> Forall (rec_mem c) (bl_recs b) ->
  bl_recs b <> [] -> block_mem c b.
Proof.
  intros c b [B1 B2 B3 B4] R M N. destruct (bl_recs b) as [|r rs]; [congruence|].
  inversion B2 as [|? ? [T1 T2] _]; inversion R as [|? ? Rr _]; inversion M as [|? ? [M1 M2] _]; subst.
  split; [rewrite <- T2; exact M1|]. intros n Hn. rewrite <- T1 in Hn.
  rewrite (ro_type r Rr) in Hn. injection Hn as <-. exact M2.
Qed.

Lemma Forall_flat : forall A B (f : A -> list B) (P : B -> Prop) l,
  Forall P (flat_map f l) -> Forall (fun x => Forall P (f x)) l.
Proof.
  intros A B f P l. induction l as [|x l IH]; intro H; [constructor|].
  cbn [flat_map] in H. apply Forall_app in H. destruct H. constructor; auto.
Qed.

Lemma part_LOADS : forall c ascii p t spec, part_text ascii p t -> part_ok ascii p -> fmt v22s ascii spec ->
  part_fits c spec p -> LOADS c t spec (part_after ascii spec p).
Proof.
  intros c ascii p t spec HT HO HF [F1 F2]. destruct p as [l|l]; destruct HT as (b & HB & ->); cbn [part_ok part_after] in *.
  - change (str "$Nodes" ++ [x0a] ++ b ++ str "$EndNodes" ++ [x0a]) with
      (str "$Nodes" ++ [x0a] ++ b ++ (str "$End" ++ tl (str "$Nodes")) ++ [x0a]).
    rewrite <- section_text. pose proof (nodes_dispatch c ascii spec _ HF eq_refl) as ED.
    destruct ascii.
    + destruct (load_nodes_a c (prior_nodes (nodes spec)) l b HB) with (u := endl) as (p & Wp & HE);
        [|exact F1|apply ws_endl|].
      { eapply Forall_impl; [|exact HO]. cbn beta. tauto. }
      eapply section_LOADS; [tok|reflexivity| |exact Wp]. rewrite ED.
      apply (EX_map_ret _ _ _ (fun n' => set_nodes n' spec)). exact HE.
    + destruct HB as (sep & Ws & ->).
      eapply (section_LOADS _ _ _ _ _ sep); [tok|reflexivity| |exact Ws]. rewrite ED.
      apply (EX_map_ret _ _ _ (fun n' => set_nodes n' spec)).
      rewrite app_assoc, app_assoc. rewrite (app_assoc (_ ++ _)).
      apply (EX_frame _ _ _ _ [] sep). rewrite <- !app_assoc.
      apply load_nodes_b; [|exact F1|apply ws_endl].
      eapply Forall_impl; [|exact HO]. cbn beta. intros n (H1 & H2 & H3 & H4 & H5).
      specialize (H5 eq_refl). unfold node_int, size_ok in *. tauto.
  - change (str "$Elements" ++ [x0a] ++ b ++ str "$EndElements" ++ [x0a]) with
      (str "$Elements" ++ [x0a] ++ b ++ (str "$End" ++ tl (str "$Elements")) ++ [x0a]).
    rewrite <- section_text. pose proof (elements_dispatch c ascii spec _ HF eq_refl) as ED.
    destruct F2 as [M1 M2]. destruct (prior_eblocks (elements spec)) as (P1 & P2 & P3).
    assert (R1 : Forall rec_ok l) by (eapply Forall_impl; [|exact HO]; cbn beta; tauto).
    assert (R2 : Forall (fun r => zlen (er_tags r) <= INT_MAX) l) by (eapply Forall_impl; [|exact HO]; cbn beta; tauto).
    destruct ascii.
    + destruct (load_elements_a c (prior_elements (elements spec)) (entities spec) l b HB) with (u := endl) as (p & Wp & HE);
        [|apply ws_endl|].
      { split; try assumption. rewrite P1. exact M2. }
      eapply section_LOADS; [tok|reflexivity| |exact Wp]. rewrite ED.
      apply (EX_map_ret _ _ _ (fun r' => set_entities (snd r') (set_elements (fst r') spec))). exact HE.
    + destruct HB as (bs & sep & Ws & -> & B1 & B2 & ->).
      eapply (section_LOADS _ _ _ _ _ sep); [tok|reflexivity| |exact Ws]. rewrite ED.
      apply (EX_map_ret _ _ _ (fun r' => set_entities (snd r') (set_elements (fst r') spec))).
      rewrite app_assoc, app_assoc. rewrite (app_assoc (_ ++ _)).
      apply (EX_frame _ _ _ _ [] sep). rewrite <- !app_assoc.
      apply load_elements_b; [|apply ws_endl].
      apply Forall_flat in R1, M1. split; [exact B1|exact R1| | |rewrite P1; exact M2].
      * rewrite Forall_forall in *. intros b Hb. apply block_mem_of; [apply B1|apply R1|apply M1|apply B2]; exact Hb.
      * intro HN. rewrite Forall_forall in B2. apply B2.
        clear -HN. induction bs as [|b [|b' bs] IH]; [congruence|left; reflexivity|].
        right. apply IH. discriminate.
Qed.

(** ** Several sections *)

Record same_rest (s s' : MshSpec) : Prop := {
  sr_format : mesh_format s' = mesh_format s;
  sr_groups : physical_groups s' = physical_groups s;
  sr_data : node_data s' = node_data s /\ element_data s' = element_data s /\
            element_node_data s' = element_node_data s;
  sr_ext : ns_version s' = ns_version s /\ curves s' = curves s /\ patches s' = patches s }.

Lemma same_rest_refl : forall s, same_rest s s.
Proof. intro s. repeat split. Qed.

Lemma same_rest_trans : forall a b d, same_rest a b -> same_rest b d -> same_rest a d.
Proof.
  intros a b d [A1 A2 (A3 & A4 & A5) (A6 & A7 & A8)] [B1 B2 (B3 & B4 & B5) (B6 & B7 & B8)].
  repeat split; congruence.
Qed.

Lemma part_same_rest : forall ascii s p, same_rest s (part_after ascii s p).
Proof. intros ascii s [l|l]; repeat split. Qed.

(** Counts of elements. *)
Definition counted (ascii : bool) (ps : list part) (old : Z) (acc : list el_rec) (num : Z) : Prop :=
  if ascii then num = to_size (old + zlen (all_recs ps)) else (old = zlen acc -> num = zlen (last_recs ps acc)).

(** Range of the element tags. *)
Definition id_bounds (ids : list Z) (e : Elements) : Prop :=
  (e_blocks e = [] /\ ids = []) \/
  (e_blocks e <> [] /\ ids <> [] /\ least SIZE_MAX ids (e_min e) /\ greatest 0 ids (e_max e)).

Record loaded_parts (ascii : bool) (ps : list part) (s s' : MshSpec) : Prop := {
  lp_rest : same_rest s s';
  lp_nodes : mesh_nodes (nodes s') = mesh_nodes (nodes s) ++ all_nodes ps;
  lp_elements : mesh_elements (elements s') = mesh_elements (elements s) ++ map rec_element (all_recs ps);
  lp_num : forall acc, counted ascii ps (e_num_elements (elements s)) acc (e_num_elements (elements s'));
  lp_ids : forall ids, id_bounds ids (elements s) -> Forall (fun x => 0 <= x <= INT_MAX) ids ->
             Forall (fun r => 0 <= er_id r <= INT_MAX) (all_recs ps) ->
             id_bounds (ids ++ map er_id (all_recs ps)) (elements s');
  lp_entities : entities_from ps (entities s) (entities s') }.

Lemma part_inv : forall c ascii0 ascii s p, fmt v22s ascii s -> inv22 c s -> part_ok ascii0 p -> part_fits c s p ->
  inv22 c (part_after ascii s p).
Proof.
  intros c ascii0 ascii s p [Fv Ft] HI HO [F1 F2]. destruct p as [l|l]; cbn [part_ok part_after] in *.
  - apply (inv22_nodes c s _ l); [exact HI|]. apply (nodes_after_appended c); [|exact F1].
    eapply Forall_impl; [|exact HO]. cbn beta. tauto.
  - apply inv22_elements; [exact HI|]. exists l. rewrite Ft, ftype_eqb. destruct F2 as [M1 M2].
    destruct (prior_eblocks (elements s)) as (P1 & P2 & P3).
    split; [|split].
    + apply appended_recs.
      * eapply Forall_impl; [|exact HO]; cbn beta; tauto.
      * destruct ascii; reflexivity.
      * right. rewrite P1, zlen_app, zlen_map. exact M2.
    + unfold nums_22, elements_after. destruct ascii; repeat split.
    + reflexivity.
Qed.

Lemma min_ids : forall ids i, Forall (fun x => 0 <= x <= INT_MAX) ids -> 0 <= i ->
  0 <= fold_left Z.min ids i.
Proof.
  induction ids as [|x ids IH]; intros i H Hi; [exact Hi|]. inversion H; subst. cbn [fold_left]. apply IH; [assumption|lia].
Qed.

Lemma least_in : forall ids i v, Forall (fun x => 0 <= x <= INT_MAX) ids -> ids <> [] -> INT_MAX <= i ->
  least i ids v -> In v ids.
Proof.
  intros ids i v H N Hi ([->|I1] & _ & L); [|exact I1].
  destruct ids as [|x ids]; [congruence|]. inversion H; inversion L; subst. left. lia.
Qed.

Lemma id_step : forall ascii e en ids recs, id_bounds ids e -> Forall (fun x => 0 <= x <= INT_MAX) ids ->
  Forall (fun r => 0 <= er_id r <= INT_MAX) recs ->
  id_bounds (ids ++ map er_id recs) (fst (elements_after ascii (prior_elements e) en recs)).
Proof.
  intros ascii e en ids recs HB HI HR.
  destruct (prior_eblocks e) as (P1 & P2 & P3).
  assert (EB : e_blocks (fst (elements_after ascii (prior_elements e) en recs)) = e_blocks e ++ map rec_block recs)
    by (unfold elements_after; destruct ascii; cbn [fst e_blocks]; rewrite P1; reflexivity).
  assert (HS : map to_size (map er_id recs) = map er_id recs).
  { rewrite map_map. apply map_ext_in. intros r Hr. rewrite Forall_forall in HR. specialize (HR r Hr).
    apply to_size_id. unfold INT_MAX, two64 in *. lia. }
  assert (IR : Forall (fun x => 0 <= x <= INT_MAX) (map er_id recs)).
  { apply Forall_forall. intros x Hx. apply in_map_iff in Hx. destruct Hx as (r & <- & Hr).
    rewrite Forall_forall in HR. apply (HR r Hr). }
  assert (B0 : least SIZE_MAX ids (e_min (prior_elements e)) /\ greatest 0 ids (e_max (prior_elements e))).
  { destruct HB as [[HB ->]|(HB & _ & L & G)].
    - unfold prior_elements. rewrite HB. cbn [e_min e_max].
      split; (split; [left; reflexivity|split; [lia|constructor]]).
    - unfold prior_elements. destruct (e_blocks e); [congruence|]. split; assumption. }
  unfold id_bounds. rewrite EB. destruct recs as [|r recs].
  - cbn [map app]. rewrite !app_nil_r. destruct HB as [HB|(HB & N & L & G)]; [left; exact HB|].
    right. split; [exact HB|]. split; [exact N|].
    assert (PE : prior_elements e = e) by (unfold prior_elements; destruct (e_blocks e); [congruence|reflexivity]).
    rewrite PE. unfold elements_after. destruct ascii; cbn [fst e_min e_max map fold_left]; [split; assumption|].
    rewrite !to_size_id by (unfold INT_MAX, two64; lia).
    assert (IM : In (e_min e) ids) by (apply (least_in ids SIZE_MAX); [assumption|assumption|unfold INT_MAX, SIZE_MAX; lia|exact L]).
    rewrite Forall_forall in HI. specialize (HI _ IM). rewrite Z.min_l by lia.
    rewrite Z.max_l by (destruct G; lia). split; assumption.
  - set (l := r :: recs) in *. assert (N : map er_id l <> []) by discriminate.
    right. split; [intro X; apply app_eq_nil in X; destruct X; discriminate|].
    split; [intro X; apply app_eq_nil in X; destruct X; discriminate|].
    destruct B0 as [L G]. unfold elements_after. destruct ascii; cbn [fst e_min e_max].
    + rewrite HS. split; [eapply least_app; [exact L|apply fold_min_least]|eapply greatest_app; [exact G|apply fold_max_greatest]].
    + pose proof (fold_min_least (map er_id l) INT_MAX) as A. pose proof (fold_max_greatest (map er_id l) 0) as C.
      set (m := fold_left Z.min (map er_id l) INT_MAX) in *. set (k := fold_left Z.max (map er_id l) 0) in *.
      assert (M0 : In m (map er_id l)) by (apply (least_in _ INT_MAX); [exact IR|exact N|lia|exact A]).
      rewrite Forall_forall in IR. pose proof (IR m M0) as M1.
      assert (KX : 0 <= k <= INT_MAX).
      { destruct C as (C1 & C2 & C3). split; [exact C2|]. destruct C1 as [->|C1]; [unfold INT_MAX; lia|]. apply (IR k C1). }
      rewrite (to_size_id m) by (unfold INT_MAX, two64 in *; lia).
      rewrite (to_size_id k) by (unfold INT_MAX, two64 in *; lia).
      destruct L as (L1 & L2 & L3). destruct G as (G1 & G2 & G3). destruct A as (A1 & A2 & A3). destruct C as (C1 & C2 & C3).
      split; (split; [|split; [lia|]]).
      * destruct (Z.min_spec (e_min (prior_elements e)) m) as [[X ->]|[X ->]].
        -- destruct L1 as [L1|L1]; [exfalso; rewrite L1 in X; unfold SIZE_MAX, INT_MAX in *; lia|].
           right. apply in_or_app. left. exact L1.
        -- right. apply in_or_app. right. exact M0.
      * apply Forall_app. split; [eapply Forall_impl; [|exact L3]|eapply Forall_impl; [|exact A3]]; cbn beta; intros; lia.
      * destruct (Z.max_spec (e_max (prior_elements e)) k) as [[X ->]|[X ->]].
        -- destruct C1 as [C1|C1]; [left; exact C1|right; apply in_or_app; right; exact C1].
        -- destruct G1 as [G1|G1]; [left; exact G1|right; apply in_or_app; left; exact G1].
      * apply Forall_app. split; [eapply Forall_impl; [|exact G3]|eapply Forall_impl; [|exact C3]]; cbn beta; intros; lia.
Qed.

Lemma create_all_added : forall l en, Forall rec_ok l ->
  entities_added l en (create_all (fold_left add_rec l pmaps_empty) en).
Proof. intros l en H. apply entities_of_recs. exact H. Qed.

Lemma part_facts : forall c ascii0 ascii s p, inv22 c s -> part_ok ascii0 p -> part_fits c s p ->
  loaded_parts ascii [p] s (part_after ascii s p).
Proof.
  intros c ascii0 ascii s p HI HO [F1 F2]. destruct p as [l|l]; cbn [part_ok] in *.
  - split.
    + apply part_same_rest.
    + cbn [part_after set_nodes nodes all_nodes flat_map part_nodes]. rewrite app_nil_r.
      assert (A : nodes_appended (prior_nodes (nodes s)) (nodes_after (prior_nodes (nodes s)) l) l).
      { apply (nodes_after_appended c); [|exact F1]. eapply Forall_impl; [|exact HO]. cbn beta. tauto. }
      destruct (na_block _ _ _ A) as (b & E & _ & _ & _ & EB & _).
      destruct (prior_blocks (nodes s)) as [P1 _]. rewrite P1 in E.
      rewrite (mesh_nodes_snoc _ _ _ E), EB. reflexivity.
    + cbn [part_after set_nodes elements all_recs flat_map part_recs map]. rewrite app_nil_r. reflexivity.
    + intro acc. unfold counted. cbn [part_after set_nodes elements all_recs flat_map part_recs last_recs app].
      destruct ascii; [|auto]. rewrite zlen_nil, Z.add_0_r. symmetry. apply to_size_id. apply (iv_num_elements c s HI).
    + intros ids H _ _. cbn [part_after set_nodes elements all_recs flat_map part_recs map app]. rewrite app_nil_r. exact H.
    + constructor. constructor.
  - destruct F2 as [M1 M2]. destruct (prior_eblocks (elements s)) as (P1 & P2 & P3).
    assert (R1 : Forall rec_ok l) by (eapply Forall_impl; [|exact HO]; cbn beta; tauto).
    split.
    + apply part_same_rest.
    + cbn [part_after set_entities set_elements nodes all_nodes flat_map part_nodes]. rewrite app_nil_r. reflexivity.
    + cbn [part_after set_entities set_elements elements all_recs flat_map part_recs]. rewrite app_nil_r.
      unfold mesh_elements.
      assert (E : e_blocks (fst (elements_after ascii (prior_elements (elements s)) (entities s) l)) =
                  e_blocks (elements s) ++ map rec_block l) by (destruct ascii; cbn [elements_after fst e_blocks]; rewrite P1; reflexivity).
      rewrite E, flat_map_app. f_equal. apply rec_blocks_22. exact R1.
    + intro acc. unfold counted. cbn [part_after set_entities set_elements elements all_recs flat_map part_recs last_recs].
      rewrite app_nil_r. destruct ascii; cbn [elements_after fst e_num_elements]; [rewrite P3; reflexivity|auto].
    + intros ids H1 H2 H3. cbn [part_after set_entities set_elements elements all_recs flat_map part_recs] in *.
      rewrite app_nil_r in *. apply id_step; assumption.
    + econstructor; [|constructor]. apply create_all_added. exact R1.
Qed.

Lemma entities_from_app : forall ps qs a b d, entities_from ps a b -> entities_from qs b d -> entities_from (ps ++ qs) a d.
Proof. intros ps qs a b d H. induction H; intro Q; cbn [app]; [exact Q|constructor; auto|econstructor; eauto]. Qed.

Lemma last_recs_app : forall ps qs acc, last_recs (ps ++ qs) acc = last_recs qs (last_recs ps acc).
Proof. induction ps as [|[l|l] ps IH]; intros qs acc; cbn [app last_recs]; auto. Qed.

Lemma loaded_parts_app : forall ascii ps qs a b d,
  loaded_parts ascii ps a b -> loaded_parts ascii qs b d -> loaded_parts ascii (ps ++ qs) a d.
Proof.
  intros ascii ps qs a b d [A1 A2 A3 A4 A5 A6] [B1 B2 B3 B4 B5 B6].
  assert (EN : all_nodes (ps ++ qs) = all_nodes ps ++ all_nodes qs) by apply flat_map_app.
  assert (ER : all_recs (ps ++ qs) = all_recs ps ++ all_recs qs) by apply flat_map_app.
  split.
  - eapply same_rest_trans; eassumption.
  - rewrite B2, A2, EN, app_assoc. reflexivity.
  - rewrite B3, A3, ER, map_app, app_assoc. reflexivity.
  - intro acc. specialize (A4 acc). unfold counted in *. destruct ascii.
    + specialize (B4 []). rewrite B4, A4, ER, zlen_app. unfold to_size. rewrite Zplus_mod_idemp_l. f_equal. lia.
    + intro E. rewrite last_recs_app. apply B4. apply A4. exact E.
  - intros ids H1 H2 H3. rewrite ER in *. apply Forall_app in H3. destruct H3 as [H3 H4].
    rewrite map_app, app_assoc. apply B5; [apply A5; assumption| |exact H4].
    apply Forall_app. split; [exact H2|]. apply Forall_forall. intros x Hx. apply in_map_iff in Hx.
    destruct Hx as (r & <- & Hr). rewrite Forall_forall in H3. apply (H3 r Hr).
  - eapply entities_from_app; eassumption.
Qed.

Lemma loaded_parts_nil : forall c ascii s, inv22 c s -> loaded_parts ascii [] s s.
Proof.
  intros c ascii s HI. split.
  - apply same_rest_refl.
  - rewrite app_nil_r. reflexivity.
  - rewrite app_nil_r. reflexivity.
  - intro acc. unfold counted. destruct ascii; [|auto]. cbn [all_recs flat_map]. rewrite zlen_nil, Z.add_0_r.
    symmetry. apply to_size_id. apply (iv_num_elements c s HI).
  - intros ids H _ _. cbn [all_recs flat_map map]. rewrite app_nil_r. exact H.
  - constructor.
Qed.

Definition part_room (c : cfg) (p : part) : Prop :=
  fits c sz_double (3 * zlen (part_nodes p)) /\ Forall (rec_mem c) (part_recs p).

(** There is room for each section in turn. *)
Fixpoint all_fit (c : cfg) (ascii : bool) (spec : MshSpec) (ps : list part) : Prop :=
  match ps with
  | [] => True
  | p :: ps => part_fits c spec p /\ all_fit c ascii (part_after ascii spec p) ps
  end.

Lemma parts_fold : forall c ascii ps spec, Forall (part_ok ascii) ps ->
  fmt v22s ascii spec -> inv22 c spec -> Forall (part_room c) ps ->
  fits c sz_NodeBlock (zlen (n_blocks (nodes spec)) + zlen ps) ->
  fits c sz_ElementBlock (zlen (e_blocks (elements spec)) + zlen (all_recs ps)) ->
  let s' := fold_left (part_after ascii) ps spec in
  all_fit c ascii spec ps /\ inv22 c s' /\ loaded_parts ascii ps spec s'.
Proof.
  intros c ascii ps. induction ps as [|p ps IH]; intros spec HO HF HI HR MN ME; cbv zeta.
  - split; [exact I|]. split; [exact HI|]. apply (loaded_parts_nil c). exact HI.
  - inversion HO as [|? ? Op HO']; inversion HR as [|? ? [R1 R2] HR']; subst.
    assert (PF : part_fits c spec p).
    { split; destruct p as [l|l]; try exact I.
      - destruct (prior_blocks (nodes spec)) as [P1 _]. split; [|exact R1]. rewrite P1.
        rewrite zlen_cons in MN. pose proof (zlen_nonneg _ ps).
        eapply fits_le; [| |exact MN]; [reflexivity|lia].
      - split; [exact R2|]. cbn [all_recs flat_map part_recs] in ME. rewrite zlen_app in ME.
        pose proof (zlen_nonneg _ (flat_map part_recs ps)). eapply fits_le; [| |exact ME]; [reflexivity|lia]. }
    pose proof (part_facts c ascii ascii spec p HI Op PF) as PFS.
    pose proof (part_inv c ascii ascii spec p HF HI Op PF) as PI.
    destruct (IH (part_after ascii spec p)) as (A' & I' & P').
    + exact HO'.
    + destruct HF. destruct p; split; assumption.
    + exact PI.
    + exact HR'.
    + eapply fits_le; [| |exact MN]; [reflexivity|]. rewrite zlen_cons. destruct p as [l|l]; cbn [part_after set_nodes set_entities set_elements nodes].
      * unfold nodes_after. cbn [v22_add_block n_blocks]. destruct (prior_blocks (nodes spec)) as [-> _].
        rewrite zlen_app. match goal with |- context [zlen [?x]] => change (zlen [x]) with 1 end. lia.
      * lia.
    + eapply fits_le; [| |exact ME]; [reflexivity|]. destruct p as [l|l]; cbn [part_after set_nodes set_entities set_elements elements all_recs flat_map part_recs app].
      * apply Z.le_refl.
      * fold (all_recs ps). rewrite zlen_app. destruct (prior_eblocks (elements spec)) as (P1 & _).
        assert (E : e_blocks (fst (elements_after ascii (prior_elements (elements spec)) (entities spec) l)) =
                  e_blocks (elements spec) ++ map rec_block l) by (destruct ascii; cbn [elements_after fst e_blocks]; rewrite P1; reflexivity).
        rewrite E, zlen_app, zlen_map. lia.
    + split; [split; assumption|]. split; [exact I'|].
      change (p :: ps) with ([p] ++ ps). eapply loaded_parts_app; [exact PFS|exact P'].
Qed.

Lemma parts_LOADS : forall c ascii ps ts spec, Forall2 (part_text ascii) ps ts -> Forall (part_ok ascii) ps ->
  fmt v22s ascii spec -> all_fit c ascii spec ps ->
  LOADS c (List.concat ts) spec (fold_left (part_after ascii) ps spec).
Proof.
  intros c ascii ps ts spec H. revert spec. induction H as [|p t ps ts Hp H IH]; intros spec HO HF HA.
  - apply LOADS_nil.
  - inversion HO; subst. destruct HA as [A1 A2]. cbn [List.concat fold_left].
    eapply LOADS_app; [apply part_LOADS; eassumption|]. apply IH; try assumption. destruct HF. destruct p; split; assumption.
Qed.

(** ** The file *)

Lemma header_LOADS : forall c ascii spec, LOADS c (header_22 ascii) spec (set_format (format_22 ascii) spec).
Proof.
  intros c ascii spec.
  assert (HE := format_EX (format_22 ascii) spec (or_intror eq_refl)
           ltac:(destruct ascii; [left|right]; reflexivity) (or_introl eq_refl)).
  destruct ascii.
  - apply (section_LOADS c (str "$MeshFormat") (format_body (format_22 true)) _ _ endl); [tok|reflexivity|exact HE|apply ws_endl].
  - apply (section_LOADS c (str "$MeshFormat") (format_body (format_22 false) ++ endl) _ _ endl); [tok|reflexivity| |apply ws_endl].
    rewrite app_assoc. apply (EX_frame _ _ _ _ [] endl). exact HE.
Qed.

Lemma least_unique : forall i l a b, least i l a -> least i l b -> a = b.
Proof.
  intros i l a b (A1 & A2 & A3) (B1 & B2 & B3). rewrite Forall_forall in A3, B3.
  assert (a <= b) by (destruct B1 as [->|B1]; [exact A2|exact (A3 b B1)]).
  assert (b <= a) by (destruct A1 as [->|A1]; [exact B2|exact (B3 a A1)]). lia.
Qed.

Lemma greatest_unique : forall i l a b, greatest i l a -> greatest i l b -> a = b.
Proof.
  intros i l a b (A1 & A2 & A3) (B1 & B2 & B3). rewrite Forall_forall in A3, B3.
  assert (b <= a) by (destruct B1 as [->|B1]; [exact A2|exact (A3 b B1)]).
  assert (a <= b) by (destruct A1 as [->|A1]; [exact B2|exact (B3 a A1)]). lia.
Qed.

Lemma file_raw : forall c ascii ps b lo hi, file_of ascii ps b -> Forall (part_ok ascii) ps -> loadable c ps lo hi ->
  exists raw, LOADS c b spec_default raw /\ inv22 c raw /\
    loaded_parts ascii ps (set_format (format_22 ascii) spec_default) raw.
Proof.
  intros c ascii ps b lo hi (ts & HT & ->) HO [D1 D2 D3 D4 D5 D6 D7 D8 D9].
  assert (HI : inv22 c (set_format (format_22 ascii) spec_default)).
  { pose proof (inv22_default c) as [I1 I2 I3 I4 I5 I6 I7 I8 I9 I10 I11]. split; assumption. }
  destruct (parts_fold c ascii ps (set_format (format_22 ascii) spec_default) HO) as (HA & HR & HP).
  - split; reflexivity.
  - exact HI.
  - apply Forall_flat in D9. rewrite Forall_forall in *. intros p Hp. split; [apply D7; exact Hp|].
    rewrite Forall_forall. intros r Hr. specialize (D9 p Hp). rewrite Forall_forall in D9. exact (D9 r Hr).
  - exact D6.
  - exact D8.
  - eexists. split; [|split; [exact HR|exact HP]]. eapply LOADS_app; [apply header_LOADS|].
    apply parts_LOADS; try assumption. split; reflexivity.
Qed.

(** Post-processing. *)
Lemma raw_mesh : forall c ascii ps lo hi raw, Forall (part_ok ascii) ps -> loadable c ps lo hi ->
  inv22 c raw -> loaded_parts ascii ps (set_format (format_22 ascii) spec_default) raw ->
  exists s, post_process c raw = Ok s /\ mesh_of ascii ps lo hi s.
Proof.
  intros c ascii ps lo hi raw HO HD HI HP. destruct HP as [P1 P2 P3 P4 P5 P6]. destruct HD as [D1 D2 D3 D4 D5 D6 D7 D8 D9].
  assert (MF : mesh_format raw = format_22 ascii) by (rewrite (sr_format _ _ P1); reflexivity).
  change (mesh_nodes (nodes (set_format (format_22 ascii) spec_default))) with (@nil node) in P2.
  change (mesh_elements (elements (set_format (format_22 ascii) spec_default))) with (@nil element) in P3.
  cbn [app] in P2, P3.
  assert (BND : n_min (nodes raw) = lo /\ n_max (nodes raw) = hi).
  { destruct (iv_bounds c raw HI) as [(X & _)|(_ & L & G)].
    - exfalso. apply D1. rewrite <- P2. unfold mesh_nodes. rewrite X. reflexivity.
    - rewrite P2 in L, G. split; [eapply least_unique; eassumption|eapply greatest_unique; eassumption]. }
  destruct BND as [EL EH].
  assert (LH : lo <= hi).
  { destruct D2 as (_ & _ & L). destruct D3 as (_ & _ & G). destruct (all_nodes ps) as [|n l]; [congruence|].
    inversion L; inversion G; subst. lia. }
  destruct (post_safe22 c raw) as [(_ & s & E & R)|(X & _)].
  - rewrite MF. reflexivity.
  - exact HI.
  - rewrite EL, EH. exact LH.
  - rewrite EL, EH. exact D5.
  - exists s. split; [exact E|]. pose proof (regrouped_consistent c raw s R HI) as CO.
    destruct R as [R1 R2 R3 R4 R5 R6 R7 R8 R0 R9 R10 (nbs & ebs & ES)].
    assert (F : mesh_format s = mesh_format raw /\ n_num_nodes (nodes s) = n_num_nodes (nodes raw) /\
                n_min (nodes s) = n_min (nodes raw) /\ n_max (nodes s) = n_max (nodes raw) /\
                e_num_elements (elements s) = e_num_elements (elements raw) /\ entities s = entities raw /\
                e_min (elements s) = e_min (elements raw) /\ e_max (elements s) = e_max (elements raw))
      by (rewrite ES; repeat split).
    destruct F as (F1 & F2 & F3 & F4 & F5 & F6 & F7 & F8).
    assert (W : same_rest raw s) by (rewrite ES; repeat split).
    pose proof (same_rest_trans _ _ _ P1 W) as [_ W1 W2 (_ & W3 & W4)].
    split; try assumption.
    + congruence.
    + congruence.
    + rewrite F2, (iv_num_nodes c raw HI), P2. reflexivity.
    + congruence.
    + congruence.
    + rewrite <- P3. exact R6.
    + congruence.
    + apply R0. eapply Forall_impl; [|exact (iv_one c raw HI)]. cbn beta. intros x ->. lia.
    + rewrite F5. specialize (P4 []). unfold counted in P4. destruct ascii; [exact P4|]. apply P4. reflexivity.
    + intros N Q. rewrite F7, F8. destruct (P5 []) as [[_ X]|(_ & _ & X)].
      * left. split; reflexivity.
      * constructor.
      * rewrite Forall_forall in *. intros r Hr. split; [exact (Q r Hr)|].
        apply in_flat_map in Hr. destruct Hr as (p & Hp & Hr). specialize (HO p Hp).
        destruct p as [l|l]; [destruct Hr|]. cbn [part_ok part_recs] in *. rewrite Forall_forall in HO.
        destruct (HO r Hr) as [[[_ X] _ _ _] _]. exact X.
      * exfalso. destruct (all_recs ps); [congruence|discriminate].
      * exact X.
    + rewrite F6. exact P6.
    + split; assumption.
  - exfalso. apply X. intros e t He Ht. rewrite EL, EH. apply (D4 e t); [|exact Ht]. rewrite <- P3. exact He.
Qed.

Theorem file_loads : forall c ascii ps b lo hi, file_of ascii ps b -> Forall (part_ok ascii) ps ->
  loadable c ps lo hi -> exists s, load_msh c b = Ok s /\ mesh_of ascii ps lo hi s.
Proof.
  intros c ascii ps b lo hi HF HO HD. destruct (file_raw c ascii ps b lo hi HF HO HD) as (raw & HL & HI & HP).
  rewrite (LOADS_file c b raw HL). apply raw_mesh; assumption.
Qed.
