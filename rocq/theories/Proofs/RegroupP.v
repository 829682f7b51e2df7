(** The statements about 2.2 files, assembled. *)

From Verif Require Import Model.LoadMsh Spec.Text22 Proofs.BytesP Proofs.RtStep Proofs.TriP Proofs.Load22P Proofs.File22P
  Proofs.EntP Proofs.Text22P.

Lemma post_version : forall c raw s, post_process c raw = Ok s -> version (mesh_format s) = str "2.2" ->
  version (mesh_format raw) = str "2.2".
Proof.
  intros c raw s E V. unfold post_process in E. destruct (bytes_eqb (version (mesh_format raw)) v22s) eqn:B.
  - apply bytes_eqb_eq in B. exact B.
  - injection E as <-. exact V.
Qed.

Lemma loaded22 : forall c b s, load_msh c b = Ok s -> sections_22 c b -> version (mesh_format s) = str "2.2" ->
  exists raw, file_22 c b raw /\ regrouped raw s /\ inv22 c raw.
Proof.
  intros c b s E H22 V. destruct (load_ends c b s E) as (raw & HE & P).
  assert (F : file_22 c b raw) by (split; [exact HE|split; [exact H22|exact (post_version c raw s P V)]]).
  exists raw. split; [exact F|]. exact (load22 c b raw s F E).
Qed.

Theorem consistent22 : forall c b s, load_msh c b = Ok s -> sections_22 c b ->
  version (mesh_format s) = str "2.2" ->
  consistent_22 s /\ Forall (fun b => nb_tags b <> []) (n_blocks (nodes s)) /\
  Forall (fun b => 0 < eb_num b) (e_blocks (elements s)).
Proof.
  intros c b s E H V. destruct (loaded22 c b s E H V) as (raw & _ & R & I).
  split; [exact (regrouped_consistent c raw s R I)|]. split; [exact (rgd_node_full _ _ R)|].
  apply (rgd_element_full _ _ R). eapply Forall_impl; [|exact (iv_one c raw I)]. cbn beta. intros x ->. reflexivity.
Qed.

Theorem section_recs : forall c b spec s spec' s', sections_22 c b -> meets c b (str "$Elements") spec s ->
  dispatch c (str "$Elements") spec s = Ok (spec', s') ->
  exists recs, elements_appended c (elements spec) (elements spec') recs /\
    entities_added recs (entities spec) (entities spec').
Proof.
  intros c b spec s spec' s' H22 HM ED.
  assert (HI : inv22 c spec).
  { destruct HM as (s0 & R & _). exact (inv22_reached c b H22 _ R). }
  assert (Hv := H22 _ _ _ HM (or_intror eq_refl)).
  change (dispatch c (str "$Elements") spec) with (load_elements c spec) in ED.
  destruct (tri_post _ _ _ (load_elements_22 any_ub c spec I I Hv (iv_num_elements c spec HI)) _ _ _ ED)
    as (p & -> & recs & [A1 A2 A3] & _ & EN).
  destruct (prior_eblocks (elements spec)) as (P1 & _). rewrite P1 in A2.
  exists recs. cbn [set_entities set_elements elements entities]. split; [split; assumption|].
  rewrite EN. apply entities_of_recs. exact A1.
Qed.

Theorem section_nodes : forall c b spec s spec' s', sections_22 c b -> meets c b (str "$Nodes") spec s ->
  dispatch c (str "$Nodes") spec s = Ok (spec', s') ->
  exists rows, nodes_appended (prior_nodes (nodes spec)) (nodes spec') rows /\
    mesh_nodes (nodes spec') = mesh_nodes (nodes spec) ++ rows.
Proof.
  intros c b spec s spec' s' H22 HM ED. assert (Hv := H22 _ _ _ HM (or_introl eq_refl)).
  change (dispatch c (str "$Nodes") spec) with (load_nodes c spec) in ED.
  destruct (tri_post _ _ _ (load_nodes_22 any_ub c spec I Hv) _ _ _ ED) as (n' & rows & -> & HA).
  exists rows. cbn [set_nodes nodes]. split; [exact HA|].
  destruct (na_block _ _ _ HA) as (bl & E & _ & _ & _ & EB & _). rewrite (proj1 (prior_blocks _)) in E.
  rewrite (mesh_nodes_snoc _ _ _ E), EB. reflexivity.
Qed.

Theorem bounds22 : forall c b s, load_msh c b = Ok s -> sections_22 c b ->
  version (mesh_format s) = str "2.2" ->
  n_num_nodes (nodes s) = to_size (zlen (mesh_nodes (nodes s))) /\
  (mesh_nodes (nodes s) <> [] ->
   least SIZE_MAX (map n_tag (mesh_nodes (nodes s))) (n_min (nodes s)) /\
   greatest 0 (map n_tag (mesh_nodes (nodes s))) (n_max (nodes s))).
Proof.
  intros c b s E H V. destruct (loaded22 c b s E H V) as (raw & _ & R & I).
  destruct (regrouped_bounds c raw s R I) as (E1 & E2 & E3). rewrite E1, E2, E3, (rgd_nodes _ _ R).
  split; [exact (iv_num_nodes c raw I)|]. intro N.
  destruct (iv_bounds c raw I) as [(X & _)|(_ & X)]; [|exact X].
  exfalso. apply N. unfold mesh_nodes. rewrite X. reflexivity.
Qed.
