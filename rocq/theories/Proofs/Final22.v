(** Statements of Props/RoundTrip22.v assembled. *)

From Verif Require Import Model.Save Spec.Consistent22 Spec.Rounding Tests.Examples Tests.Examples22 Tests.ExamplesRt22
  Proofs.RtBase Proofs.RtStep Proofs.Rt41B Proofs.Rt41 Proofs.RoundP Proofs.Rt22 Proofs.BytesP Proofs.ShowP Proofs.ElemP Proofs.TextP.
Ltac Zify.zify_post_hook ::= idtac.

Lemma rt22 : forall a, exists r : dbl -> dbl,
  (forall x, size_ok x -> finite x -> six_digits_of x (r x)) /\
  forall c s, consistent22 c a s ->
    exists b s', save_msh c s = (b, Ok tt) /\ load_msh c b = Ok s' /\ kept22 c a r s s'.
Proof. intro a. exists ascii_round. split; [exact ascii_round_six|]. intros c s. apply roundtrip22. Qed.

(** The entities are not written. *)
Lemma save_no_entities : forall c s en, version (mesh_format s) = str "2.2" ->
  save_msh c (set_entities en s) = save_msh c s.
Proof.
  intros c s en Hv.
  assert (E : forall s0, version (mesh_format s0) = str "2.2" ->
    (if negb (entities_empty (entities s0)) then save_entities s0 else wret) = wret).
  { intros s0 H. unfold save_entities. cbv zeta. rewrite H. destruct (negb _); reflexivity. }
  unfold save_msh. rewrite (E s Hv), (E (set_entities en s) Hv). reflexivity.
Qed.

Lemma tag32_mod : forall t, tag32 t mod 2 ^ 32 = t mod 2 ^ 32.
Proof.
  intro t. unfold tag32. destruct (_ <? _).
  - apply Z.mod_mod. lia.
  - replace (2 ^ 64 - 2 ^ 32) with ((2 ^ 32 - 1) * 2 ^ 32) by lia. rewrite Z.mod_add by lia. apply Z.mod_mod. lia.
Qed.

Lemma tag32_range : forall t, 0 <= tag32 t < 2 ^ 31 \/ 2 ^ 64 - 2 ^ 31 <= tag32 t < 2 ^ 64.
Proof.
  intro t. unfold tag32. pose proof (Z.mod_pos_bound t (2 ^ 32) ltac:(lia)).
  destruct (Z.ltb_spec (t mod 2 ^ 32) (2 ^ 31)); lia.
Qed.

Lemma tag32_same : forall t, size_ok t -> (tag32 t = t <-> t < 2 ^ 31 \/ 2 ^ 64 - 2 ^ 31 <= t).
Proof.
  intros t [H1 H2]. unfold two64 in H2. pose proof (tag32_range t) as R. split; [intro E; rewrite E in R; lia|].
  intro H. unfold tag32. destruct H as [H|H].
  - rewrite Z.mod_small by lia. replace (t <? 2 ^ 31) with true by (symmetry; apply Z.ltb_lt; lia). reflexivity.
  - replace (t mod 2 ^ 32) with (t - (2 ^ 64 - 2 ^ 32)).
    + replace (t - (2 ^ 64 - 2 ^ 32) <? 2 ^ 31) with false by (symmetry; apply Z.ltb_ge; lia). lia.
    + symmetry. symmetry. apply (Z.mod_unique _ _ (2 ^ 32 - 1)); lia.
Qed.

Lemma nodes_22_small : forall r s, Forall (fun n => 0 <= n_tag n < 2 ^ 31) (mesh_nodes (nodes s)) ->
  nodes_22 false r s = mesh_nodes (nodes s).
Proof.
  intros r s H. unfold nodes_22. rewrite <- (map_id (mesh_nodes (nodes s))) at 2. apply map_ext_in.
  intros n Hn. rewrite Forall_forall in H. specialize (H n Hn). destruct n as [t x y z]. unfold node_via22, tag_22.
  cbn [n_tag n_x n_y n_z via] in *. rewrite tag32_small by (unfold INT_MAX; lia). reflexivity.
Qed.

Lemma elements_22_small : forall s,
  Forall (fun e => 0 <= el_tag e < 2 ^ 31 /\ Forall (fun t => 0 <= t < 2 ^ 31) (el_nodes e)) (mesh_elements (elements s)) ->
  Forall2 (fun e e' => el_tag e' = el_tag e /\ el_type e' = el_type e /\ el_ent e' = el_ent e /\
                       el_nodes e' = el_nodes e /\ gmsh_dim (el_type e) = Some (el_dim e'))
    (mesh_elements (elements s)) (elements_22 s).
Proof.
  intros s H. unfold elements_22.
  assert (D : forall e, In e (mesh_elements (elements s)) -> gmsh_dim (el_type e) <> None).
  { intros e He. apply in_flat_map in He. destruct He as (b & Hb & He). unfold block_elements in He.
    destruct (gmsh_nodes (eb_type b)) eqn:E; [|destruct He]. apply in_map_iff in He. destruct He as (r & <- & _).
    cbn [element_of el_type]. destruct (nodes_dim _ _ E) as (d & ->). discriminate. }
  induction H as [|e l [H1 H2] H IH]; [constructor|]. cbn [map]. constructor.
  - cbn [element_via22 el_tag el_type el_ent el_nodes el_dim]. rewrite tag32_small by (unfold INT_MAX; lia).
    repeat split.
    + rewrite <- (map_id (el_nodes e)) at 2. apply map_ext_in. intros t Ht. rewrite Forall_forall in H2.
      apply tag32_small. specialize (H2 t Ht). unfold INT_MAX. lia.
    + unfold type_dim. specialize (D e (or_introl eq_refl)). destruct (gmsh_dim (el_type e)); [reflexivity|congruence].
  - apply IH. intros x Hx. apply D. right. exact Hx.
Qed.

Lemma splines_kept22 : exists r : dbl -> dbl,
  (forall x, size_ok x -> finite x -> six_digits_of x (r x)) /\
  forall c a s, nanospline c = true -> consistent22 c a s ->
    exists b s', save_msh c s = (b, Ok tt) /\ load_msh c b = Ok s' /\
      ns_version s' = ns_version s /\ curves s' = map (curve_via a r) (curves s) /\
      patches s' = map (patch_via a r) (patches s).
Proof.
  exists ascii_round. split; [exact ascii_round_six|]. intros c a s Hn H.
  destruct (roundtrip22 c a s H) as (b & s' & E1 & E2 & K). exists b, s'.
  split; [exact E1|]. split; [exact E2|]. pose proof (k22_splines _ _ _ _ _ K) as S. rewrite Hn in S.
  injection S as S1 S2 S3. auto.
Qed.
