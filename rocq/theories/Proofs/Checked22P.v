(** validate_spec on meshes loaded from 2.2 files. *)

From Verif Require Import Spec.Checked Proofs.BytesP Proofs.Reach Proofs.Hoare Proofs.SkipP Proofs.RtStep Proofs.ElemP Proofs.TriP
  Proofs.PostP Proofs.Load22P Proofs.File22P Proofs.CheckedP.

Ltac Zify.zify_post_hook ::= idtac.

(** ** From a section to the end of the file *)

Lemma step_unique : forall c p q r, step c p q -> step c p r -> q = r.
Proof.
  intros c p q r H1 H2. destruct H1; inversion H2; subst; try congruence.
  all: match goal with H : _ \/ _ |- _ => destruct H; congruence end.
Qed.

Lemma steps_through : forall c n p q, steps c n p q -> forall m r, steps c m p r ->
  (exists k, steps c k q r) \/ (exists k, steps c (S k) r q).
Proof.
  intros c n p q H. induction H as [p|n p q r HS H IH]; intros m r' H2; [left; eauto|].
  inversion H2; subst; [right; exists n; econstructor; eassumption|].
  rewrite (step_unique _ _ _ _ HS H0) in *. eapply IH. eassumption.
Qed.

Lemma steps_keep : forall c b (I : MshSpec -> Prop),
  (forall name spec s spec' s', meets c b name spec s -> is_section name = true -> I spec ->
     dispatch c name spec s = Ok (spec', s') -> I spec') ->
  forall n p q, steps c n p q -> reached c b p -> I (spec_of p) -> I (spec_of q).
Proof.
  intros c b I HD n p q H. induction H as [p|n p q r HS H IH]; intros R Hp; [exact Hp|].
  apply IH; [exact (reached_step _ _ _ _ R HS)|].
  destruct HS as [spec s buf s1 E0 ET IS|spec s buf s1 spec' s2 E0 ET IS ED
              |flag buf spec s buf' s' E0 NE ET|flag buf spec s C]; cbn [spec_of] in *; try exact Hp.
  apply (HD buf spec s1 spec' s2); try assumption. exists s. auto.
Qed.

(** What a section leaves behind is there at the end. *)
Lemma left_behind : forall c b (I : MshSpec -> Prop) name raw,
  is_section (str name) = true ->
  (forall spec s spec' s', meets c b (str name) spec s -> dispatch c (str name) spec s = Ok (spec', s') -> I spec') ->
  (forall name spec s spec' s', meets c b name spec s -> is_section name = true -> I spec ->
     dispatch c name spec s = Ok (spec', s') -> I spec') ->
  has_section c b name -> ends_with c b raw -> I raw.
Proof.
  intros c b I name raw IS HN HK (spec & s & M) (s1 & (m & R1) & E1).
  pose proof M as (s0 & (n & R0) & E0 & ET).
  destruct (steps_through c n _ _ R0 m _ R1) as [(k & K)|(k & K)].
  - inversion K as [|k' ? q ? HS K']; subst; [congruence|].
    inversion HS as [sp1 t1 buf t2 X1 X2 X3|sp1 t1 buf t2 sp2 t3 X1 X2 X3 X4| |]; subst; rewrite ET in X2; injection X2 as <- <-; [congruence|].
    assert (R : reached c b (Fwd (end_marker (str name)) [] sp2 t3)).
    { apply (reached_step c b (Main spec s0)); [exists n; exact R0|exact HS]. }
    apply (steps_keep c b I HK _ _ _ K' R). cbn [spec_of]. eapply HN; eassumption.
  - inversion K as [|k' ? q ? HS K']; subst. inversion HS; congruence.
Qed.

(** ** The ranges *)

Definition ids (e : Elements) : list Z := map el_tag (mesh_elements e).

Record ranged (ascii : bool) (e : Elements) : Prop := {
  rg_max : ascii = false -> e_blocks e <> [] -> e_max e <= INT_MAX;
  rg_ids : ascii = true \/ Forall (fun t => t <= INT_MAX) (ids e) ->
           Forall (fun t => e_min e <= t <= e_max e) (ids e) }.

Lemma to_size_neg : forall x, int_ok x -> to_size x <= INT_MAX -> 0 <= x.
Proof.
  intros x H L. destruct (Z_le_gt_dec 0 x) as [G|G]; [exact G|exfalso].
  unfold to_size, two64 in L. unfold int_ok, INT_MIN, INT_MAX in *.
  rewrite <- (Z.mod_unique x 18446744073709551616 (-1) (x + 18446744073709551616)) in L; lia.
Qed.

Lemma to_size_int : forall x, 0 <= x <= INT_MAX -> to_size x = x.
Proof. intros x H. apply to_size_id. unfold INT_MAX, two64 in *. lia. Qed.

Lemma appended_ids : forall c e e' recs, elements_appended c (prior_elements e) e' recs ->
  ids e' = ids e ++ map to_size (map er_id recs) /\ (e_blocks e' = [] <-> e_blocks e = [] /\ recs = []).
Proof.
  intros c e e' recs [A (bs & B1 & B2 & B3 & B4 & B5) C]. destruct (prior_eblocks e) as (P & _). rewrite P in B1. split.
  - unfold ids, mesh_elements. rewrite B1, flat_map_app, map_app, B5, !map_map. reflexivity.
  - rewrite B1. split.
    + intro H. apply app_eq_nil in H. destruct H as [-> ->]. split; [reflexivity|]. rewrite zlen_nil in B2. destruct recs; [reflexivity|].
      rewrite zlen_cons in B2. pose proof (zlen_nonneg _ recs). lia.
    + intros [-> ->]. rewrite zlen_nil in B2. destruct bs; [reflexivity|]. rewrite zlen_cons in B2. pose proof (zlen_nonneg _ bs). lia.
Qed.

Lemma ids_nil : forall e, e_blocks e = [] -> ids e = [].
Proof. intros e H. unfold ids, mesh_elements. rewrite H. reflexivity. Qed.

Lemma ranged_after : forall c e en ascii p, elements_post c (prior_elements e) en ascii p -> ranged ascii e ->
  ranged ascii (fst p) /\ (e_blocks (fst p) = [] -> e_max (fst p) < e_min (fst p)).
Proof.
  intros c e en ascii p (recs & A & N & _) [G1 G2]. destruct (appended_ids c e (fst p) recs A) as [EI EB].
  pose proof (ea_recs _ _ _ _ A) as RO.
  assert (PR : (e_blocks e = [] /\ e_min (prior_elements e) = SIZE_MAX /\ e_max (prior_elements e) = 0) \/
               (e_blocks e <> [] /\ prior_elements e = e)).
  { unfold prior_elements. destruct (e_blocks e); [left; auto|right; split; [discriminate|reflexivity]]. }
  unfold nums_22 in N. destruct ascii.
  - destruct N as (_ & _ & N1 & N2).
    pose proof (fold_min_least (map to_size (map er_id recs)) (e_min (prior_elements e))) as (_ & L1 & L2).
    pose proof (fold_max_greatest (map to_size (map er_id recs)) (e_max (prior_elements e))) as (_ & M1 & M2).
    rewrite <- N1 in L1, L2. rewrite <- N2 in M1, M2. split; [split|].
    + discriminate.
    + intros _. rewrite EI. apply Forall_app. split.
      * destruct PR as [(E & _)|(_ & E)]; [rewrite (ids_nil e E); constructor|]. rewrite E in L1, M1.
        eapply Forall_impl; [|exact (G2 (or_introl eq_refl))]. cbn beta. intros; lia.
      * rewrite Forall_forall in *. intros t Ht. split; [exact (L2 t Ht)|exact (M2 t Ht)].
    + intro E. apply EB in E. destruct E as [E ->]. cbn [map fold_left] in N1, N2.
      destruct PR as [(_ & P1 & P2)|(X & _)]; [|congruence]. rewrite N1, N2, P1, P2. reflexivity.
  - destruct N as (_ & _ & N1 & N2).
    pose proof (fold_min_least (map er_id recs) INT_MAX) as (L0 & L1 & L2).
    pose proof (fold_max_greatest (map er_id recs) 0) as (M0 & M1 & M2).
    set (mn := fold_left Z.min (map er_id recs) INT_MAX) in *. set (mx := fold_left Z.max (map er_id recs) 0) in *.
    assert (MX : 0 <= mx <= INT_MAX).
    { split; [exact M1|]. destruct M0 as [->|M0]; [unfold INT_MAX; lia|]. apply in_map_iff in M0. destruct M0 as (r & <- & Hr).
      rewrite Forall_forall in RO. apply (ro_id r (RO r Hr)). }
    rewrite (to_size_int mx MX) in N2. split; [split|].
    + intros _ NE. rewrite N2. destruct PR as [(_ & _ & ->)|(X & ->)]; [lia|]. specialize (G1 eq_refl X). lia.
    + intros [X|SM]; [discriminate|]. rewrite EI in SM |- *. apply Forall_app in SM. destruct SM as [S1 S2].
      assert (NN : Forall (fun x => 0 <= x) (map er_id recs)).
      { rewrite Forall_forall in *. intros x Hx. apply to_size_neg.
        - apply in_map_iff in Hx. destruct Hx as (r & <- & Hr). apply (ro_id r (RO r Hr)).
        - apply S2. apply in_map. exact Hx. }
      assert (MN : 0 <= mn <= INT_MAX).
      { split; [|exact L1]. destruct L0 as [->|L0]; [unfold INT_MAX; lia|]. rewrite Forall_forall in NN. exact (NN _ L0). }
      rewrite (to_size_int mn MN) in N1. apply Forall_app. split.
      * destruct PR as [(E & _)|(_ & E)]; [rewrite (ids_nil e E); constructor|]. rewrite E in N1, N2.
        eapply Forall_impl; [|exact (G2 (or_intror S1))]. cbn beta. intros; lia.
      * rewrite Forall_map. rewrite Forall_forall in *. intros x Hx.
        assert (XB : 0 <= x <= INT_MAX).
        { split; [exact (NN x Hx)|]. apply in_map_iff in Hx. destruct Hx as (r & <- & Hr). apply (ro_id r (RO r Hr)). }
        rewrite (to_size_int x XB). specialize (L2 x Hx). specialize (M2 x Hx). cbn beta in L2, M2. lia.
    + intro E. apply EB in E. destruct E as [E ->]. cbn [map fold_left] in *.
      destruct PR as [(_ & P1 & P2)|(X & _)]; [|congruence]. rewrite N1, N2, P1, P2. subst mn mx. reflexivity.
Qed.

Section File.
Variables (c : cfg) (b : bytes).
Hypothesis H22 : sections_22 c b.

Lemma sections_node : forall spec s spec' s', meets c b (str "$Nodes") spec s -> dispatch c (str "$Nodes") spec s = Ok (spec', s') ->
  exists n' rows, spec' = set_nodes n' spec /\ nodes_appended (prior_nodes (nodes spec)) n' rows.
Proof.
  intros spec s spec' s' M ED. assert (Hv := H22 _ _ _ M (or_introl eq_refl)).
  change (dispatch c (str "$Nodes") spec) with (load_nodes c spec) in ED.
  exact (tri_post _ _ _ (load_nodes_22 any_ub c spec I Hv) _ _ _ ED).
Qed.

Lemma sections_element : forall spec s spec' s', meets c b (str "$Elements") spec s ->
  dispatch c (str "$Elements") spec s = Ok (spec', s') ->
  exists p, spec' = set_entities (snd p) (set_elements (fst p) spec) /\
     elements_post c (prior_elements (elements spec)) (entities spec) (file_type (mesh_format spec) =? 0) p.
Proof.
  intros spec s spec' s' M ED. assert (Hv := H22 _ _ _ M (or_intror eq_refl)).
  assert (HI : inv22 c spec) by (destruct M as (s0 & R & _); exact (inv22_reached c b H22 _ R)).
  change (dispatch c (str "$Elements") spec) with (load_elements c spec) in ED.
  exact (tri_post _ _ _ (load_elements_22 any_ub c spec I I Hv (iv_num_elements c spec HI)) _ _ _ ED).
Qed.

(** An invariant on nodes and elements needs to be checked for two sections only. *)
Lemma two_sections : forall (Q : Nodes -> Elements -> Prop),
  (forall spec s n' rows, meets c b (str "$Nodes") spec s -> Q (nodes spec) (elements spec) ->
     nodes_appended (prior_nodes (nodes spec)) n' rows -> Q n' (elements spec)) ->
  (forall spec s p, meets c b (str "$Elements") spec s -> Q (nodes spec) (elements spec) ->
     elements_post c (prior_elements (elements spec)) (entities spec) (file_type (mesh_format spec) =? 0) p -> Q (nodes spec) (fst p)) ->
  forall name spec s spec' s', meets c b name spec s -> is_section name = true -> Q (nodes spec) (elements spec) ->
     dispatch c name spec s = Ok (spec', s') -> Q (nodes spec') (elements spec').
Proof.
  intros Q QN QE name spec s spec' s' M IS HQ ED.
  destruct (bytes_eqb name (str "$Nodes")) eqn:E1; [|destruct (bytes_eqb name (str "$Elements")) eqn:E2].
  - apply bytes_eqb_eq in E1. subst name. destruct (sections_node _ _ _ _ M ED) as (n' & rows & -> & A).
    cbn [set_nodes nodes elements]. exact (QN _ _ _ _ M HQ A).
  - apply bytes_eqb_eq in E2. subst name. destruct (sections_element _ _ _ _ M ED) as (p & -> & A).
    cbn [set_entities set_elements nodes elements]. exact (QE _ _ _ M HQ A).
  - apply bytes_eqb_neq in E1, E2. destruct (dispatch_frame c name spec E1 E2 _ _ _ ED) as [F1 F2]. rewrite F1, F2. exact HQ.
Qed.

Variable raw : MshSpec.
Hypothesis EW : ends_with c b raw.

Lemma at_end : forall (I : MshSpec -> Prop), I spec_default ->
  (forall name spec s spec' s', meets c b name spec s -> is_section name = true -> I spec ->
     dispatch c name spec s = Ok (spec', s') -> I spec') -> I raw.
Proof. intros J J0 JS. destruct EW as (s & R & _). exact (reached_inv c b J J0 JS _ R). Qed.

Lemma nodes_there : has_section c b "$Nodes" -> n_blocks (nodes raw) <> [].
Proof.
  assert (X : forall n n' rows, nodes_appended n n' rows -> n_blocks n' <> []).
  { intros n n' rows [(x & E & _) _ _ _ _ _]. rewrite E. destruct (n_blocks n); discriminate. }
  intro HS. apply (left_behind c b (fun s => n_blocks (nodes s) <> []) "$Nodes" raw); try assumption.
  - reflexivity.
  - intros spec s spec' s' M ED. destruct (sections_node _ _ _ _ M ED) as (n' & rows & -> & A). exact (X _ _ _ A).
  - apply (two_sections (fun n _ => n_blocks n <> [])); [|auto]. intros spec s n' rows _ _ A. exact (X _ _ _ A).
Qed.

Lemma nodes_not_there : n_blocks (nodes raw) = [] \/ has_section c b "$Nodes".
Proof.
  apply (at_end (fun s => n_blocks (nodes s) = [] \/ has_section c b "$Nodes")); [left; reflexivity|].
  apply (two_sections (fun n _ => n_blocks n = [] \/ has_section c b "$Nodes")); [|auto].
  intros spec s n' rows M _ _. right. exists spec, s. exact M.
Qed.

Lemma elements_not_there :
  (e_blocks (elements raw) = [] /\ e_min (elements raw) = 0 /\ e_max (elements raw) = 0) \/ has_section c b "$Elements".
Proof.
  apply (at_end (fun s => (e_blocks (elements s) = [] /\ e_min (elements s) = 0 /\ e_max (elements s) = 0) \/ has_section c b "$Elements"));
    [left; repeat split; reflexivity|].
  apply (two_sections (fun _ e => (e_blocks e = [] /\ e_min e = 0 /\ e_max e = 0) \/ has_section c b "$Elements")); [auto|].
  intros spec s p M _ _. right. exists spec, s. exact M.
Qed.

Variable ascii : bool.
Hypothesis AS : elements_as ascii c b.

Lemma ranged_step : forall name spec s spec' s', meets c b name spec s -> is_section name = true -> ranged ascii (elements spec) ->
     dispatch c name spec s = Ok (spec', s') -> ranged ascii (elements spec').
Proof.
  apply (two_sections (fun _ e => ranged ascii e)); [auto|].
  intros spec s p M R A. rewrite (AS _ _ M) in A. exact (proj1 (ranged_after _ _ _ _ _ A R)).
Qed.

Lemma ranged_default : ranged ascii (elements spec_default).
Proof. split; cbn [spec_default elements e_default e_blocks]; [congruence|]. intros _. constructor. Qed.

Lemma ranged_raw : ranged ascii (elements raw).
Proof. exact (at_end (fun s => ranged ascii (elements s)) ranged_default ranged_step). Qed.

Lemma elements_there : has_section c b "$Elements" -> e_blocks (elements raw) = [] -> e_max (elements raw) < e_min (elements raw).
Proof.
  intro HS.
  assert (KS : forall name spec s spec' s', meets c b name spec s -> is_section name = true ->
     (ranged ascii (elements spec) /\ (e_blocks (elements spec) = [] -> e_max (elements spec) < e_min (elements spec))) ->
     dispatch c name spec s = Ok (spec', s') ->
     ranged ascii (elements spec') /\ (e_blocks (elements spec') = [] -> e_max (elements spec') < e_min (elements spec'))).
  { apply (two_sections (fun _ e => ranged ascii e /\ (e_blocks e = [] -> e_max e < e_min e))); [auto|].
    intros spec s p M [R _] A. rewrite (AS _ _ M) in A. exact (ranged_after _ _ _ _ _ A R). }
  apply (left_behind c b (fun s => ranged ascii (elements s) /\ (e_blocks (elements s) = [] -> e_max (elements s) < e_min (elements s))) "$Elements" raw);
    try assumption.
  - reflexivity.
  - intros spec s spec' s' M ED. destruct (sections_element _ _ _ _ M ED) as (p & -> & A).
    rewrite (AS _ _ M) in A. cbn [set_entities set_elements elements]. apply (ranged_after _ _ _ _ _ A).
    destruct M as (s0 & R & _). exact (reached_inv c b (fun s => ranged ascii (elements s)) ranged_default ranged_step _ R).
Qed.
End File.

(** ** Loaded meshes *)

(** What post-processing looked up is within the range. *)
Lemma load22_index : forall c b raw s, file_22 c b raw -> load_msh c b = Ok s -> indexable raw.
Proof.
  intros c b raw s (HE & H22 & Hv) HL. pose proof (inv22_ends c b raw HE H22) as HI.
  rewrite (ends_load c b raw HE) in HL.
  destruct (can_hold c sz_size (size_of raw) (@nil Z)) as [[]| |u| |] eqn:C1.
  2,4,5: exfalso; unfold post_process in HL; rewrite Hv in HL; change (bytes_eqb (str "2.2") v22s) with true in HL;
    cbv iota in HL; unfold regroup_nodes in HL; cbv zeta in HL; fold (size_of raw) in HL; rewrite C1 in HL; discriminate.
  2:{ exfalso. eapply can_hold_not_undef. exact C1. }
  assert (C2 : can_hold c sz_ElementBlock (e_num_blocks (elements raw)) (@nil Z) = Ok tt).
  { unfold post_process in HL. rewrite Hv in HL. change (bytes_eqb (str "2.2") v22s) with true in HL.
    cbv iota in HL. unfold regroup_nodes in HL. cbv zeta in HL. fold (size_of raw) in HL. rewrite C1 in HL.
    cbn [obind] in HL. destruct (ofold (mark_block _ _) _ _) as [ar| | | |]; try discriminate. cbn [obind] in HL.
    destruct (ofold _ (n_blocks (nodes raw)) _) as [st| | | |]; try discriminate. cbn [obind] in HL.
    unfold regroup_elements in HL. cbn [set_nodes elements] in HL.
    destruct (can_hold c sz_ElementBlock (e_num_blocks (elements raw)) (@nil Z)) as [[]| | | |]; try discriminate.
    reflexivity. }
  destruct (post22 c raw Hv (inv22_raw c raw HI) C1 C2) as [(X & _)|(_ & E)]; [exact X|].
  rewrite E in HL. discriminate.
Qed.

Lemma sized22 : forall s, consistent_22 s -> Forall (fun b => 0 < eb_num b) (e_blocks (elements s)) ->
  Forall (fun b => room (zlen (nb_data b))) (n_blocks (nodes s)) -> sized_spec s.
Proof.
  intros s [A1 A2 A3 A4 A5] P R. split; try assumption.
  - rewrite Forall_forall in *. intros b Hb. destruct (A2 b Hb) as [B1 B2 B3 B4 B5 B6 B7]. specialize (R b Hb). unfold room in R.
    split; [exact B4| |intro X; lia].
    rewrite B1. cbn [Z.ltb Z.compare]. rewrite <- B4, Z.mul_comm, <- B5. symmetry. apply Z.mod_small.
    pose proof (zlen_nonneg _ (nb_data b)). change (2 ^ 63) with 9223372036854775808 in R. change (2 ^ 64) with 18446744073709551616. lia.
  - rewrite Forall_forall in *. intros b Hb. split; [exact (P b Hb)|]. apply (A5 b Hb).
Qed.

Lemma mesh_nil : forall (n : Nodes), Forall (fun b => nb_tags b <> []) (n_blocks n) -> mesh_nodes n = [] -> n_blocks n = [].
Proof.
  intros n F E. unfold mesh_nodes in E. destruct (n_blocks n) as [|b l]; [reflexivity|exfalso].
  cbn [flat_map] in E. apply app_eq_nil in E. destruct E as [E _]. inversion F as [|? ? X _]; subst. apply X.
  rewrite <- (nodes_of_tags (Z.to_nat (node_width b)) (nb_tags b) (nb_data b)). fold (block_nodes b). rewrite E. reflexivity.
Qed.

(** All that is left to check are the ranges of tags; when they are right. *)
Lemma ranges22 : forall c b raw s ascii, file_22 c b raw -> load_msh c b = Ok s -> elements_as ascii c b ->
  (in_range s <-> filled c b "$Nodes" (mesh_nodes (nodes s)) /\ filled c b "$Elements" (mesh_elements (elements s)) /\
     (ascii = false -> Forall (fun e => el_tag e <= INT_MAX) (mesh_elements (elements s)))).
Proof.
  intros c b raw s ascii F22 HL AS. pose proof (load22_index c b raw s F22 HL) as [IE IN].
  destruct (load22 c b raw s F22 HL) as [R HI]. destruct F22 as (EW & H22 & Hv).
  pose proof (ranged_raw c b H22 raw EW ascii AS) as [G1 G2].
  pose proof (elements_there c b H22 raw EW ascii AS) as ET.
  pose proof (elements_not_there c b H22 raw EW) as EN.
  pose proof (nodes_there c b H22 raw EW) as NT. pose proof (nodes_not_there c b H22 raw EW) as NN.
  pose proof (iv_bounds c raw HI) as TB. destruct (inv22_bounds c raw HI) as [B1 B2].
  pose proof (mesh_tags_size _ (iv_nodes c raw HI)) as TS.
  assert (EO : Forall el_ok (mesh_elements (elements raw))).
  { apply Forall_flat. eapply Forall_impl; [|exact (iv_elements c raw HI)]. exact block_elements_ok. }
  assert (EB : mesh_elements (elements raw) = [] -> e_blocks (elements raw) = []).
  { intro E. pose proof (iv_elements c raw HI) as X. pose proof (iv_one c raw HI) as Y. unfold mesh_elements in E.
    destruct (e_blocks (elements raw)) as [|x l]; [reflexivity|exfalso]. cbn [flat_map] in E. apply app_eq_nil in E. destruct E as [E _].
    inversion X as [|? ? X1 _]; inversion Y as [|? ? Y1 _]; subst. destruct (eb22_data x X1) as (n & G & _).
    unfold block_elements in E. rewrite G, Y1 in E. discriminate. }
  assert (EM : e_min (elements s) = e_min (elements raw) /\ e_max (elements s) = e_max (elements raw) /\
               n_min (nodes s) = n_min (nodes raw) /\ n_max (nodes s) = n_max (nodes raw)).
  { destruct (rgd_rest raw s R) as (nbs & ebs & ->). cbn [set_elements set_nodes elements nodes e_min e_max n_min n_max]. auto. }
  destruct EM as (M1 & M2 & M3 & M4). pose proof (rgd_nodes raw s R) as RN. pose proof (rgd_elements raw s R) as RE.
  clear R. unfold filled. split.
  - intros [A1 A2 A3 A4]. rewrite RN, RE, M1, M2, M3, M4 in *. split; [|split].
    + intros HS E. specialize (NT HS). destruct TB as [(X & _)|(_ & L & G)]; [congruence|]. rewrite E in L, G.
      destruct L as ([L|[]] & _). destruct G as ([G|[]] & _). rewrite L, G in A1. unfold SIZE_MAX in A1. lia.
    + intros HS E. specialize (ET HS (EB E)). lia.
    + intro AF. destruct (e_blocks (elements raw)) as [|x l] eqn:EL.
      * unfold mesh_elements. rewrite EL. constructor.
      * assert (NE : x :: l <> []) by discriminate. specialize (G1 AF NE).
        eapply Forall_impl; [|exact A4]. cbn beta. unfold element_range. intros e [[_ H] _]. rewrite M2 in H. lia.
  - rewrite RN, RE. intros (FN & FE & FA).
    assert (OB : n_min (nodes raw) <= n_max (nodes raw) /\ n_max (nodes raw) - n_min (nodes raw) + 1 < two64).
    { destruct TB as [(X & L & G)|(X & L & G)]; [rewrite L, G; unfold two64; lia|].
      assert (HS : mesh_nodes (nodes raw) <> []).
      { apply FN. destruct NN as [N|N]; [congruence|exact N]. }
      destruct (mesh_nodes (nodes raw)) as [|r l] eqn:EL; [congruence|].
      destruct L as (_ & _ & L), G as (_ & _ & G). cbn [map] in L, G. inversion L; inversion G; subst. split; [lia|].
      inversion IN as [|? ? I1 _]; subst. unfold inside, idx, size_of in I1. unfold size_ok in B1, B2.
      destruct (Z_lt_dec (n_max (nodes raw) - n_min (nodes raw) + 1) two64) as [T|T]; [exact T|exfalso].
      replace (n_max (nodes raw) - n_min (nodes raw) + 1) with two64 in I1 by lia.
      change (to_size two64) with 0 in I1. pose proof (to_size_range (n_tag r - n_min (nodes raw))) as [Y _]. lia. }
    destruct OB as [O1 O2].
    assert (RG : Forall (fun t => e_min (elements raw) <= t <= e_max (elements raw)) (ids (elements raw))).
    { apply G2. destruct ascii; [left; reflexivity|right]. unfold ids. apply Forall_map. exact (FA eq_refl). }
    unfold ids in RG. rewrite Forall_map in RG.
    split; rewrite ?M1, ?M2, ?M3, ?M4; try assumption.
    + destruct (mesh_elements (elements raw)) as [|e l] eqn:EL.
      * destruct EN as [(_ & -> & ->)|HS]; [lia|]. elim (FE HS eq_refl).
      * inversion RG; subst. lia.
    + rewrite RN. unfold node_range. rewrite M3, M4. rewrite Forall_map in TS.
      rewrite Forall_forall in *. intros r Hr. apply (inside_range raw); auto. 
    + rewrite RE. unfold element_range, node_range. rewrite M1, M2, M3, M4. rewrite Forall_forall in *.
      intros e He. split; [exact (RG e He)|]. specialize (IE e He). specialize (EO e He). unfold el_in, el_ok in *.
      rewrite Forall_forall in *. intros t Ht. apply (inside_range raw); auto.
Qed.
