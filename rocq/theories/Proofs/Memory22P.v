(** The memory asked for by the post-processing of 2.2 files (C72). *)

From Verif Require Import Model.LoadMsh Spec.Memory22 Proofs.BytesP Proofs.Load22P Proofs.PostP Proofs.File22P.
Ltac Zify.zify_post_hook ::= idtac.

Lemma post_alloc : forall c raw e, version (mesh_format raw) = str "2.2" ->
  can_hold c sz_size (size_of raw) (@nil Z) = Throw e -> post_process c raw = Throw e.
Proof.
  intros c raw e Hv C. unfold post_process. rewrite Hv. change (bytes_eqb (str "2.2") v22s) with true. cbv iota.
  unfold regroup_nodes. cbv zeta. fold (size_of raw). rewrite C. reflexivity.
Qed.

Lemma hold_small : forall c n, 0 <= n <= 1152921504606846975 -> n * 8 <= mem c -> can_hold c sz_size n (@nil Z) = Ok tt.
Proof.
  intros c n H M. unfold can_hold. change sz_size with 8. rewrite PD8.
  replace (1152921504606846975 <? n) with false by (symmetry; apply Z.ltb_ge; lia).
  destruct (_ <=? _); [reflexivity|]. replace (mem c <? n * 8) with false by (symmetry; apply Z.ltb_ge; lia). reflexivity.
Qed.

Lemma spans : forall c b raw, 0 <= mem c -> file_22 c b raw -> mesh_nodes (nodes raw) <> [] -> by_span c raw (load_msh c b).
Proof.
  intros c b raw M0 F N. pose proof F as (HE & H22 & Hv). pose proof (inv22_ends c b raw HE H22) as HI.
  destruct (inv22_bounds c raw HI) as [B1 B2]. unfold size_ok, two64 in B1, B2.
  assert (TB : least SIZE_MAX (map n_tag (mesh_nodes (nodes raw))) (n_min (nodes raw)) /\
               greatest 0 (map n_tag (mesh_nodes (nodes raw))) (n_max (nodes raw)) /\ n_blocks (nodes raw) <> []).
  { destruct (iv_bounds c raw HI) as [(X & _)|(X & Y & Z)]; [|auto].
    destruct N. unfold mesh_nodes. rewrite X. reflexivity. }
  destruct TB as ((L0 & _ & L) & (G0 & _ & G) & _).
  assert (LE : n_min (nodes raw) <= n_max (nodes raw)).
  { destruct (mesh_nodes (nodes raw)) as [|x l]; [destruct (N eq_refl)|]. cbn [map] in L, G.
    inversion L. inversion G. lia. }
  unfold by_span, tag_span. change (2 ^ 64) with 18446744073709551616. change (2 ^ 60) with 1152921504606846976.
  set (n := n_max (nodes raw) - n_min (nodes raw) + 1).
  destruct (Z.eq_dec n 18446744073709551616) as [E|E]; [left|right].
  - split; [exact E|].
    assert (X1 : n_min (nodes raw) = 0) by lia. assert (X2 : n_max (nodes raw) = 18446744073709551615) by lia.
    assert (SZ : size_of raw = 0) by (unfold size_of; rewrite X1, X2; reflexivity).
    rewrite (ends_load c b raw HE).
    assert (C1 : can_hold c sz_size (size_of raw) (@nil Z) = Ok tt) by (rewrite SZ; apply hold_small; lia).
    destruct (post22 c raw Hv (inv22_raw c raw HI) C1 (inv22_hold c raw M0 HI)) as [((_ & X) & _)|(_ & X)]; [|exact X].
    rewrite SZ in X. exfalso. destruct (mesh_nodes (nodes raw)) as [|x l]; [destruct (N eq_refl)|].
    inversion X as [|? ? Y _]. unfold inside, idx, to_size, two64 in Y.
    pose proof (Z.mod_pos_bound (n_tag x - n_min (nodes raw)) 18446744073709551616 ltac:(lia)). lia.
  - assert (SZ : size_of raw = n) by (unfold size_of; apply to_size_id; unfold two64; lia).
    destruct (Z_le_dec 1152921504606846976 n) as [E1|E1]; [left|right].
    + split; [lia|]. rewrite (ends_load c b raw HE). apply post_alloc; [exact Hv|]. rewrite SZ. unfold can_hold.
      change sz_size with 8. rewrite PD8.
      replace (1152921504606846975 <? n) with true by (symmetry; apply Z.ltb_lt; lia). reflexivity.
    + destruct (Z_lt_dec (mem c) (8 * n)) as [E2|E2]; [left|right].
      * split; [lia|]. split; [exact E2|]. rewrite (ends_load c b raw HE). apply post_alloc; [exact Hv|]. rewrite SZ.
        unfold can_hold. change sz_size with 8. rewrite PD8, zlen_nil.
        replace (1152921504606846975 <? n) with false by (symmetry; apply Z.ltb_ge; lia).
        replace (n <=? 0) with false by (symmetry; apply Z.leb_gt; lia).
        replace (mem c <? n * 8) with true by (symmetry; apply Z.ltb_lt; lia). reflexivity.
      * split; [lia|]. split; [lia|]. apply (safe22 c b raw F LE). split; [change sz_size with 8; rewrite PD8; unfold n in *; lia|].
        change sz_size with 8. unfold n in *. lia.
Qed.

Lemma no_nodes_span : forall c b raw, 16 <= mem c -> file_22 c b raw -> mesh_nodes (nodes raw) = [] ->
  (harmless raw /\ exists s, load_msh c b = Ok s) \/ (~ harmless raw /\ load_msh c b = Undef OutOfBounds).
Proof.
  intros c b raw M0 (HE & H22 & Hv) N. pose proof (inv22_ends c b raw HE H22) as HI.
  assert (EO : forall e, In e (mesh_elements (elements raw)) -> Forall size_ok (el_nodes e)).
  { intros e He. apply in_flat_map in He. destruct He as (bl & Hb & He).
    pose proof (iv_elements c raw HI) as F. rewrite Forall_forall in F.
    pose proof (block_elements_ok bl (F bl Hb)) as G. rewrite Forall_forall in G. apply (G e He). }
  assert (SP : 0 <= size_of raw <= 2 /\ forall t, size_ok t -> inside (size_of raw) (n_min (nodes raw)) t <->
    t = 0 \/ (n_blocks (nodes raw) <> [] /\ t = 2 ^ 64 - 1)).
  { change (2 ^ 64 - 1) with 18446744073709551615. unfold size_of, inside, idx, to_size, two64.
    destruct (iv_bounds c raw HI) as [(X & Y & Z)|(X & (Y & _) & (Z & _))].
    - rewrite Y, Z. change ((0 - 0 + 1) mod 18446744073709551616) with 1. split; [lia|]. intros t T. unfold size_ok, two64 in T.
      rewrite Z.mod_small by lia. split; [intro; left; lia|]. intros [->|[W _]]; [lia|destruct (W X)].
    - rewrite N in Y, Z. cbn [map In] in Y, Z. destruct Y as [Y|[]], Z as [Z|[]]. rewrite Y, Z.
      change ((0 - SIZE_MAX + 1) mod 18446744073709551616) with 2. split; [lia|]. intros t T. unfold size_ok, two64 in T.
      change SIZE_MAX with 18446744073709551615.
      destruct (Z.eq_dec t 18446744073709551615) as [->|T1].
      + change ((18446744073709551615 - 18446744073709551615) mod 18446744073709551616) with 0. split; [right; auto|lia].
      + replace (t - 18446744073709551615) with (t + 1 + (-1) * 18446744073709551616) by lia.
        rewrite Z.mod_add by lia. rewrite Z.mod_small by lia. split; [intro; left; lia|]. intros [->|[_ W]]; lia. }
  destruct SP as [SZ IN].
  assert (IX : indexable raw <-> harmless raw).
  { unfold indexable, harmless. rewrite N. split.
    - intros [H _] e t He Ht. rewrite Forall_forall in H. specialize (H e He). unfold el_in in H. rewrite Forall_forall in H.
      apply IN; [|exact (H t Ht)]. pose proof (EO e He) as F. rewrite Forall_forall in F. exact (F t Ht).
    - intro H. split; [|constructor]. apply Forall_forall. intros e He. apply Forall_forall. intros t Ht.
      apply IN; [|exact (H e t He Ht)]. pose proof (EO e He) as F. rewrite Forall_forall in F. exact (F t Ht). }
  rewrite (ends_load c b raw HE).
  assert (C1 : can_hold c sz_size (size_of raw) (@nil Z) = Ok tt) by (apply hold_small; lia).
  destruct (post22 c raw Hv (inv22_raw c raw HI) C1 (inv22_hold c raw ltac:(lia) HI)) as [(X & s' & E & _)|(X & E)].
  - left. split; [apply IX; exact X|]. exists s'. exact E.
  - right. split; [intro Y; apply X, IX, Y|exact E].
Qed.
