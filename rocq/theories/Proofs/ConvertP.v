(** From 2.2 to 4.1. *)

From Verif Require Import Model.Save Spec.Consistent22 Spec.Rounding
  Proofs.RtBase Proofs.RtStep Proofs.Rt41A Proofs.Rt41B Proofs.Rt41 Proofs.PostP Proofs.ElemP Proofs.BytesP Proofs.ShowP
  Proofs.RoundP Proofs.Rt22 Proofs.Final Proofs.Final22 Proofs.ValidRt.
Ltac Zify.zify_post_hook ::= idtac.

Lemma fits_down : forall c sz sz' n n', 0 <= n -> n * sz <= n' * sz' -> 0 < sz -> 0 < sz' ->
  n' * sz' <= PTRDIFF_MAX -> n' * sz' <= mem c -> fits c sz n.
Proof.
  intros c sz sz' n n' H0 H1 H2 H3 H4 H5. split; [|lia]. apply Z.div_le_lower_bound; lia.
Qed.

Lemma fits_mul : forall c sz n, 0 < sz -> fits c sz n -> n * sz <= PTRDIFF_MAX /\ n * sz <= mem c.
Proof.
  intros c sz n H [H1 H2]. split; [|exact H2]. pose proof (Z.mul_div_le PTRDIFF_MAX sz H). nia.
Qed.

(** ** Values *)

Lemma via_via_ok : forall a1 a2 x, dbl_ok a1 x -> dbl_ok a2 x -> dbl_ok a2 (via a1 r6 x).
Proof.
  intros a1 a2 x H1 H2. unfold via. destruct a1; [|exact H2].
  destruct (via_ok true x H1) as [V1 V2]. cbn [via] in *. split; [exact V1|auto].
Qed.

Lemma map_ok : forall a1 a2 l, Forall (dbl_ok a1) l -> Forall (dbl_ok a2) l -> Forall (dbl_ok a2) (map (via a1 r6) l).
Proof.
  intros a1 a2 l H1 H2. apply Forall_map. rewrite Forall_forall in *. intros x Hx. apply via_via_ok; auto.
Qed.

Lemma reals_ok : forall l, Forall (fun x => size_ok x /\ finite x) l -> Forall (fun x => size_ok x /\ finite x) (map r6 l).
Proof.
  intros l H. apply Forall_map. eapply Forall_impl; [|exact H]. cbn beta. intros x [H1 H2].
  destruct (via_ok true x (conj H1 (fun _ => H2))) as [V1 V2]. split; [exact V1|exact (V2 eq_refl)].
Qed.

Lemma data_again : forall c a1 a2 pn d, data_ok c a1 pn d -> data_ok c a2 pn d -> data_ok c a2 pn (data_via a1 r6 d).
Proof.
  intros c a1 a2 pn d [A1 A2 A3 A4 (i0 & k & l & A5 & A6) A7] [B1 B2 B3 B4 (j0 & k' & l' & B5 & B6) B7].
  split; cbn [data_via d_header string_tags real_tags int_tags d_entries].
  - exact A1.
  - apply reals_ok. exact A2.
  - rewrite zlen_map. exact A3.
  - exact A4.
  - rewrite A5 in B5. injection B5 as <- <- <-. exists i0, k, l. rewrite zlen_map. split; [exact A5|].
    apply Forall_map. rewrite Forall_forall in *. intros e He. destruct (A6 e He) as [C1 C2 C3 C4 C5].
    destruct (B6 e He) as [D1 D2 D3 D4 D5]. split; cbn [entry_via de_tag de_npe de_data].
    + destruct a1; [exact C1|]. rewrite tag32_int. apply to_size_range.
    + exact C2.
    + rewrite zlen_map. exact C3.
    + apply map_ok; assumption.
    + rewrite zlen_map. exact C5.
  - rewrite zlen_map. exact A7.
Qed.

Lemma curve_again : forall c a1 a2 k, curve_ok c a1 k -> curve_ok c a2 k -> curve_ok c a2 (curve_via a1 r6 k).
Proof.
  intros c a1 a2 k [A1 A2 A3 A4] [B1 B2 B3 B4]. split; cbn [curve_via cv_tag cv_type cv_degree cv_ncp cv_nknots cv_weights cv_data];
    rewrite ?zlen_map; try assumption. apply map_ok; assumption.
Qed.

Lemma patch_again : forall c a1 a2 k, patch_ok c a1 k -> patch_ok c a2 k -> patch_ok c a2 (patch_via a1 r6 k).
Proof.
  intros c a1 a2 k [A1 A2 A3 A4] [B1 B2 B3 B4].
  split; cbn [patch_via pt_tag pt_type pt_degu pt_degv pt_ncp pt_nu pt_nv pt_weights pt_data];
    rewrite ?zlen_map; try assumption. apply map_ok; assumption.
Qed.

(** ** Nodes *)

(** Every coordinate belongs to a node. *)
Lemma coordinate_of : forall x ts d, zlen d = 3 * zlen ts -> In x d ->
  exists n, In n (nodes_of 3 ts d) /\ (x = n_x n \/ x = n_y n \/ x = n_z n).
Proof.
  intros x ts. induction ts as [|t ts IH]; intros d L Hx.
  - destruct d as [|y d]; [destruct Hx|]. rewrite zlen_cons, zlen_nil in L. pose proof (zlen_nonneg _ d). lia.
  - rewrite zlen_cons in L. pose proof (zlen_nonneg _ ts) as P.
    destruct d as [|x0 [|x1 [|x2 d]]]; rewrite ?zlen_cons, ?zlen_nil in L; try lia.
    cbn [nodes_of nth skipn]. destruct Hx as [<-|[<-|[<-|Hx]]].
    1, 2, 3: eexists; split; [left; reflexivity|]; cbn [n_x n_y n_z]; auto.
    destruct (IH d ltac:(lia) Hx) as (n & H1 & H2). exists n. split; [right; exact H1|exact H2].
Qed.

Lemma nodes_of_via : forall a r ts d, zlen d = 3 * zlen ts ->
  nodes_of 3 ts (map (via a r) d) = map (node_round a r) (nodes_of 3 ts d).
Proof.
  intros a r ts. induction ts as [|t ts IH]; intros d L; [reflexivity|].
  rewrite zlen_cons in L. pose proof (zlen_nonneg _ ts) as P.
  destruct d as [|x0 [|x1 [|x2 d]]]; rewrite ?zlen_cons, ?zlen_nil in L; try lia.
  cbn [nodes_of nth skipn map]. rewrite IH by lia. reflexivity.
Qed.

Lemma width_22 : forall b, node_block_22 b -> node_width b = 3.
Proof. intros b H. unfold node_width. rewrite (nb22_par b H). reflexivity. Qed.

Lemma mesh_nodes_via : forall a r n, Forall node_block_22 (n_blocks n) ->
  n_num_nodes n = zlen (mesh_nodes n) ->
  mesh_nodes (nodes_via a r n) = map (node_round a r) (mesh_nodes n).
Proof.
  intros a r n H HN. unfold nodes_via. destruct (n_num_nodes n =? 0) eqn:E.
  - apply Z.eqb_eq in E. rewrite E in HN. destruct (mesh_nodes n) as [|x l]; [reflexivity|].
    rewrite zlen_cons in HN. pose proof (zlen_nonneg _ l). lia.
  - clear E HN. unfold mesh_nodes. cbn [n_blocks]. induction H as [|b l Hb H IH]; [reflexivity|].
    cbn [map flat_map]. rewrite map_app, IH. f_equal. unfold block_nodes.
    replace (node_width (node_block_via a r b)) with (node_width b) by reflexivity.
    rewrite (width_22 b Hb). cbn [node_block_via nb_tags nb_data]. apply nodes_of_via.
    rewrite (nb22_data b Hb), (nb22_num b Hb). reflexivity.
Qed.

Lemma mesh_elements_via : forall e, e_num_elements e = zlen (mesh_elements e) ->
  mesh_elements (elements_via e) = mesh_elements e.
Proof.
  intros e HN. unfold elements_via. destruct (e_num_elements e =? 0) eqn:E; [|reflexivity].
  apply Z.eqb_eq in E. rewrite E in HN. destruct (mesh_elements e) as [|x l]; [reflexivity|].
  rewrite zlen_cons in HN. pose proof (zlen_nonneg _ l). lia.
Qed.

(** Non-empty pieces. *)
Lemma pieces_zlen : forall A B (f : A -> list B) l, Forall (fun x => f x <> []) l -> zlen l <= zlen (flat_map f l).
Proof.
  intros A B f l H. induction H as [|x l Hx H IH]; [reflexivity|]. cbn [flat_map]. rewrite zlen_cons, zlen_app.
  destruct (f x) as [|y m]; [congruence|]. rewrite zlen_cons. pose proof (zlen_nonneg _ m). lia.
Qed.

Lemma block_words : forall b, element_block_22 b -> eb_data b = flat_map element_words (block_elements b).
Proof.
  intros b [_ _ [B1 B2] (n & Hn & Hd) _]. destruct (gmsh_nodes_spec _ _ Hn) as (_ & N1 & _).
  set (k := Z.to_nat (n + 1)). set (num := Z.to_nat (eb_num b)).
  assert (L : List.length (eb_data b) = (num * k)%nat).
  { unfold zlen in Hd. unfold num, k. apply Nat2Z.inj. rewrite Hd, Nat2Z.inj_mul, !Z2Nat.id by lia. reflexivity. }
  unfold block_elements. rewrite Hn. fold k num. rewrite flat_map_concat_map, map_map.
  rewrite <- (cut_concat _ _ _ L) at 1. f_equal. rewrite <- (map_id (cut k num (eb_data b))) at 1.
  apply map_ext_in. intros r Hr. pose proof (cut_row_length _ _ _ _ L Hr) as R.
  destruct r as [|x r]; [exfalso; cbn in R; unfold k in R; lia|]. reflexivity.
Qed.

Lemma block_elements_full : forall b, element_block_22 b -> 0 < eb_num b -> block_elements b <> [].
Proof.
  intros b [_ _ _ (n & Hn & _) _] H X. unfold block_elements in X. rewrite Hn in X. apply map_eq_nil in X.
  destruct (Z.to_nat (eb_num b)) eqn:E; [lia|discriminate].
Qed.

Lemma flat_map_flat : forall A B C (f : A -> list B) (g : B -> list C) l,
  flat_map g (flat_map f l) = flat_map (fun x => flat_map g (f x)) l.
Proof. intros. induction l as [|x l IH]; [reflexivity|]. cbn [flat_map]. rewrite flat_map_app, IH. reflexivity. Qed.

(** ** The loaded spec, relabelled *)

Lemma small_nodes_22 : forall a r s, small_tags s -> nodes_22 a r s = map (node_round a r) (mesh_nodes (nodes s)).
Proof.
  intros a r s [H _]. apply map_ext_in. intros n Hn. rewrite Forall_forall in H. specialize (H n Hn).
  unfold node_via22, node_round, tag_22. destruct a; [reflexivity|].
  rewrite tag32_small by (unfold INT_MAX; lia). reflexivity.
Qed.

Lemma small_elements_22 : forall s, small_tags s -> elements_22 s = map with_type_dim (mesh_elements (elements s)).
Proof.
  intros s [_ H]. apply map_ext_in. intros e He. rewrite Forall_forall in H. destruct (H e He) as [H1 H2].
  unfold element_via22, with_type_dim. rewrite tag32_small by (unfold INT_MAX; lia). f_equal.
  rewrite <- (map_id (el_nodes e)) at 2. apply map_ext_in. intros t Ht. rewrite Forall_forall in H2.
  apply tag32_small. specialize (H2 t Ht). unfold INT_MAX. lia.
Qed.

Lemma nodes_fine : forall c a s, consistent22 c a s -> Forall (node_fine a) (mesh_nodes (nodes s)).
Proof.
  intros c a s H. destruct (Z.eq_dec (n_num_nodes (nodes s)) 0) as [E|E].
  - pose proof (ok22_num_nodes _ _ _ H) as N. rewrite E in N. destruct (mesh_nodes (nodes s)) as [|x l]; [constructor|].
    rewrite zlen_cons in N. pose proof (zlen_nonneg _ l). lia.
  - apply (saved_nodes_fine c). apply (ok22_nodes _ _ _ H E).
Qed.

Lemma again41 : forall c a1 a2 s s', consistent22 c a1 (as_type a1 s) -> consistent22 c a2 (as_type a2 s) ->
  data_size (mesh_format s) = 8 -> small_tags s -> room41 c s ->
  kept22 c a1 r6 (as_type a1 s) s' -> consistent41 c a2 (to41 a2 s').
Proof.
  intros c a1 a2 s s' H1 H2 HD ST [RN RE] K.
  assert (M0 : 0 <= mem c).
  { destruct (ok22_mem _ _ _ H1) as [[_ X] _]. unfold sz_size in X. lia. }
  assert (F0 : forall sz, 0 < sz -> fits c sz 0) by (intros sz Hs; split; [apply Z.div_pos; [discriminate|lia]|lia]).
  pose proof (small_nodes_22 a1 r6 s ST) as SN. pose proof (small_elements_22 s ST) as SE.
  pose proof (k22_nodes _ _ _ _ _ K) as KN. change (nodes_22 a1 r6 (as_type a1 s)) with (nodes_22 a1 r6 s) in KN.
  pose proof (k22_elements _ _ _ _ _ K) as KE. change (elements_22 (as_type a1 s)) with (elements_22 s) in KE.
  rewrite SN in KN. rewrite SE in KE.
  pose proof (k22_node_blocks _ _ _ _ _ K) as NB. pose proof (k22_element_blocks _ _ _ _ _ K) as EB.
  destruct (k22_data _ _ _ _ _ K) as (D1 & D2 & D3).
  assert (NF : forall n, In n (mesh_nodes (nodes s')) -> node_fine a2 n).
  { intros n Hn. rewrite KN in Hn. apply in_map_iff in Hn. destruct Hn as (m & <- & Hm).
    pose proof (nodes_fine c a1 _ H1) as F1. pose proof (nodes_fine c a2 _ H2) as F2. rewrite Forall_forall in F1, F2.
    destruct (F1 m Hm) as (U1 & U2 & U3 & U4). destruct (F2 m Hm) as (V1 & V2 & V3 & V4).
    split; [exact U1|]. cbn [node_round n_x n_y n_z]. split; [|split]; apply via_via_ok; assumption. }
  assert (ZN : zlen (mesh_nodes (nodes s')) = zlen (mesh_nodes (nodes s))) by (rewrite KN; apply zlen_map).
  assert (ZE : zlen (mesh_elements (elements s')) = zlen (mesh_elements (elements s))) by (rewrite KE; apply zlen_map).
  assert (WE : flat_map element_words (mesh_elements (elements s')) = flat_map element_words (mesh_elements (elements s))).
  { rewrite KE, flat_map_map. apply flat_map_ext. reflexivity. }
  assert (TE : Forall (fun e => 0 <= el_tag e <= INT_MAX) (elements_22 s)).
  { rewrite SE. apply Forall_map. destruct ST as [_ ST]. eapply Forall_impl; [|exact ST]. cbn beta. intros e [X _].
    cbn [with_type_dim el_tag]. unfold INT_MAX. lia. }
  destruct (fits_mul c sz_NodeBlock _ eq_refl RN) as [RN1 RN2].
  destruct (fits_mul c sz_size _ eq_refl RE) as [RE1 RE2].
  split; [reflexivity|reflexivity| | | |].
  - cbn [to41 as_version as_type set_format mesh_format data_size]. rewrite (k22_format _ _ _ _ _ K). exact HD.
  - split; cbn [to41 as_version as_type set_format physical_groups nodes elements node_data element_data element_node_data].
    + rewrite (k22_groups _ _ _ _ _ K). apply H1.
    + rewrite (k22_num_nodes _ _ _ _ _ K), (ok22_num_nodes _ _ _ H1). cbn [as_type set_format nodes]. destruct RN as [X _]. change sz_NodeBlock with 72 in X.
      unfold PTRDIFF_MAX in X. pose proof (zlen_nonneg _ (mesh_nodes (nodes s))). split; [assumption|].
      change (zlen (mesh_nodes (nodes s)) <= 128102389400760775) in X. unfold two64. lia.
    + intros N0.
      assert (NE : nodes_22 a1 r6 (as_type a1 s) <> []).
      { intro X. apply N0. rewrite (k22_no_nodes _ _ _ _ _ K X). reflexivity. }
      destruct (k22_min _ _ _ _ _ K NE) as ((n1 & I1 & E1) & (n2 & I2 & E2) & _).
      rewrite <- (k22_nodes _ _ _ _ _ K) in I1, I2.
      split.
      * exact (k22_node_num _ _ _ _ _ K).
      * rewrite <- E1. apply (NF n1 I1).
      * rewrite <- E2. apply (NF n2 I2).
      * eapply (fits_down c _ sz_NodeBlock _ _ (zlen_nonneg _ _)); [|reflexivity|reflexivity|exact RN1|exact RN2].
        apply Z.mul_le_mono_nonneg_r; [discriminate|]. rewrite <- ZN. apply pieces_zlen.
        eapply Forall_impl; [|exact (k22_node_full _ _ _ _ _ K)]. cbn beta. intros b Hb X. unfold block_nodes in X.
        destruct (nb_tags b); [congruence|discriminate].
      * rewrite Forall_forall in *. intros b Hb. destruct (NB b Hb) as [B1 B2 B3 B4 B5 B6 B7].
        assert (ZB : zlen (nb_tags b) <= zlen (mesh_nodes (nodes s))).
        { rewrite <- ZN. rewrite <- (nodes_of_tags (Z.to_nat (node_width b)) (nb_tags b) (nb_data b)), zlen_map.
          apply (flat_map_zlen _ _ block_nodes). exact Hb. }
        pose proof (zlen_nonneg _ (nb_tags b)) as PT.
        assert (W3 : node_width b = 3) by (unfold node_width; rewrite B1; reflexivity).
        split; try assumption.
        -- rewrite B1. unfold int_ok, INT_MIN, INT_MAX. lia.
        -- intros _ _. rewrite B1. lia.
        -- rewrite W3. unfold INT_MAX. lia.
        -- rewrite W3, B5. lia.
        -- apply Forall_forall. intros x Hx.
           destruct (coordinate_of x (nb_tags b) (nb_data b)) as (n & Hn & Hxyz); [rewrite B5, B4; reflexivity|exact Hx|].
           assert (IN : In n (mesh_nodes (nodes s'))).
           { apply in_flat_map. exists b. split; [exact Hb|]. unfold block_nodes. rewrite W3. exact Hn. }
           destruct (NF n IN) as (_ & G2 & G3 & G4). destruct Hxyz as [->|[->| ->]]; assumption.
        -- eapply (fits_down c _ sz_NodeBlock _ _ (zlen_nonneg _ _)); [|reflexivity|reflexivity|exact RN1|exact RN2].
           change sz_size with 8. change sz_NodeBlock with 72. lia.
        -- eapply (fits_down c _ sz_NodeBlock _ _ (zlen_nonneg _ _)); [|reflexivity|reflexivity|exact RN1|exact RN2].
           rewrite B5, B4. change sz_double with 8. change sz_NodeBlock with 72. lia.
    + rewrite (k22_num_elements _ _ _ _ _ K).
      destruct (Z.eq_dec (e_num_elements (elements (as_type a1 s))) 0) as [->|N]; [unfold size_ok, two64; lia|].
      pose proof (es_mem _ _ _ (ok22_elements _ _ _ H1 N)) as [X _]. change sz_ElementBlock with 48 in X. change (PTRDIFF_MAX / 48) with 192153584101141162 in X.
      rewrite (ok22_num_elements _ _ _ H1) in *. cbn [as_type set_format elements] in *.
      pose proof (zlen_nonneg _ (mesh_elements (elements s))). unfold size_ok, two64. lia.
    + intros N0.
      assert (N : e_num_elements (elements s) <> 0) by (rewrite (k22_num_elements _ _ _ _ _ K) in N0; exact N0).
      assert (NE : elements_22 (as_type a1 s) <> []).
      { intro X. apply N0. rewrite (k22_no_elements _ _ _ _ _ K X). reflexivity. }
      destruct (k22_element_min _ _ _ _ _ K NE TE) as ((e1 & I1 & E1) & (e2 & I2 & E2) & _).
      change (elements_22 (as_type a1 s)) with (elements_22 s) in I1, I2.
      pose proof (k22_element_full _ _ _ _ _ K) as EF.
      split.
      * exact (k22_element_num _ _ _ _ _ K).
      * rewrite <- E1. rewrite Forall_forall in TE. specialize (TE e1 I1). unfold size_ok, INT_MAX, two64 in *. lia.
      * rewrite <- E2. rewrite Forall_forall in TE. specialize (TE e2 I2). unfold size_ok, INT_MAX, two64 in *. lia.
      * pose proof (es_mem _ _ _ (ok22_elements _ _ _ H1 N)) as X. apply (fits_mul c sz_ElementBlock _ eq_refl) in X.
        destruct X as [X1 X2]. rewrite (ok22_num_elements _ _ _ H1) in X1, X2. cbn [as_type set_format elements] in X1, X2.
        eapply (fits_down c _ sz_ElementBlock _ _ (zlen_nonneg _ _)); [|reflexivity|reflexivity|exact X1|exact X2].
        apply Z.mul_le_mono_nonneg_r; [discriminate|]. rewrite <- ZE. apply pieces_zlen.
        rewrite Forall_forall in *. intros b Hb. apply block_elements_full; auto.
      * rewrite Forall_forall in *. intros b Hb. pose proof (block_words b (EB b Hb)) as BW.
        destruct (EB b Hb) as [B1 B2 B3 B4 B5].
        split; try assumption.
        -- destruct (gmsh_dim_range _ _ B1) as [X _]. unfold int_ok, INT_MIN, INT_MAX. lia.
        -- eapply (fits_down c _ sz_size _ _ (zlen_nonneg _ _)); [|reflexivity|reflexivity|exact RE1|exact RE2].
           apply Z.mul_le_mono_nonneg_r; [discriminate|]. rewrite <- WE, BW. unfold mesh_elements. rewrite flat_map_flat.
           apply (flat_map_zlen _ _ (fun b => flat_map element_words (block_elements b))). exact Hb.
    + rewrite D1. apply Forall_map. pose proof (ok22_node_data _ _ _ H1) as Q1. pose proof (ok22_node_data _ _ _ H2) as Q2.
      rewrite Forall_forall in *. intros d Hd. apply data_again; auto.
    + rewrite D2. apply Forall_map. pose proof (ok22_element_data _ _ _ H1) as Q1. pose proof (ok22_element_data _ _ _ H2) as Q2.
      rewrite Forall_forall in *. intros d Hd. apply data_again; auto.
    + rewrite D3. apply Forall_map. pose proof (ok22_element_node_data _ _ _ H1) as Q1. pose proof (ok22_element_node_data _ _ _ H2) as Q2.
      rewrite Forall_forall in *. intros d Hd. apply data_again; auto.
  - cbn [to41 as_version as_type set_format entities]. rewrite (k22_entities _ _ _ _ _ K).
    split; (split; [constructor|apply F0; reflexivity]).
  - intro HN. destruct (ok22_splines _ _ _ H1 HN) as [S1 [S2 S3] [S4 S5]]. destruct (ok22_splines _ _ _ H2 HN) as [T1 [T2 T3] [T4 T5]].
    pose proof (k22_splines _ _ _ _ _ K) as KS. rewrite HN in KS. injection KS as K1 K2 K3.
    split; cbn [to41 as_version as_type set_format ns_version curves patches].
    + rewrite K1. exact S1.
    + rewrite K2, zlen_map. split; [|exact S3]. apply Forall_map. cbn [as_type set_format curves] in *.
      rewrite Forall_forall in *. intros k Hk. apply curve_again; auto.
    + rewrite K3, zlen_map. split; [|exact S5]. apply Forall_map. cbn [as_type set_format patches] in *.
      rewrite Forall_forall in *. intros k Hk. apply patch_again; auto.
Qed.

Theorem convert : forall c a1 a2 s, consistent22 c a1 (as_type a1 s) -> consistent22 c a2 (as_type a2 s) ->
  data_size (mesh_format s) = 8 -> small_tags s -> room41 c s ->
  exists b1 s1 b2 s2, save_msh c (as_type a1 s) = (b1, Ok tt) /\ load_msh c b1 = Ok s1 /\
    save_msh c (to41 a2 s1) = (b2, Ok tt) /\ load_msh c b2 = Ok s2 /\
    mesh_nodes (nodes s2) = map (node_round a2 r6) (map (node_round a1 r6) (mesh_nodes (nodes s))) /\
    mesh_elements (elements s2) = map with_type_dim (mesh_elements (elements s)).
Proof.
  intros c a1 a2 s H1 H2 HD ST RM. destruct (roundtrip22 c a1 _ H1) as (b1 & s1 & E1 & E2 & K).
  pose proof (again41 c a1 a2 s s1 H1 H2 HD ST RM K) as C.
  destruct (roundtrip41 c a2 _ C) as (b2 & E3 & E4). exists b1, s1, b2. eexists.
  repeat (split; [eassumption|]).
  pose proof (small_nodes_22 a1 r6 s ST) as SN. pose proof (small_elements_22 s ST) as SE.
  pose proof (k22_nodes _ _ _ _ _ K) as KN. change (nodes_22 a1 r6 (as_type a1 s)) with (nodes_22 a1 r6 s) in KN.
  pose proof (k22_elements _ _ _ _ _ K) as KE. change (elements_22 (as_type a1 s)) with (elements_22 s) in KE.
  rewrite SN in KN. rewrite SE in KE. cbn [via41 to41 as_version as_type set_format nodes elements]. split.
  - rewrite mesh_nodes_via.
    + rewrite KN. reflexivity.
    + exact (k22_node_blocks _ _ _ _ _ K).
    + rewrite (k22_num_nodes _ _ _ _ _ K), KN, zlen_map. exact (ok22_num_nodes _ _ _ H1).
  - rewrite mesh_elements_via; [exact KE|]. rewrite (k22_num_elements _ _ _ _ _ K), KE, zlen_map. exact (ok22_num_elements _ _ _ H1).
Qed.
