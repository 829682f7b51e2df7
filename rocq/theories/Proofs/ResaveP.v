(** What is loaded can be saved, whatever the bytes. *)

From Verif Require Import Model.LoadMsh Spec.Files22 Spec.Resave Proofs.BytesP Proofs.RtStep Proofs.Hoare Proofs.ElemP Proofs.TriP
  Proofs.ExtP Proofs.PostP Proofs.Load22P Proofs.File22P Proofs.LoadedP Proofs.Text22P.

Ltac Zify.zify_post_hook ::= idtac.

Lemma size_0 : size_ok 0.
Proof. unfold size_ok, two64. lia. Qed.
Lemma int_0 : int_ok 0.
Proof. unfold int_ok, INT_MIN, INT_MAX. lia. Qed.

Lemma tri_resize_all : forall (U : ub -> Prop) A c sz (d : A) n old (P : A -> Prop), 0 <= n -> P d -> Forall P old ->
  tri (lift (resize c sz d n old)) (fun l => zlen l = n /\ Forall P l) U.
Proof. intros U A c sz d n old P Hn Hd Ho. eapply tri_weaken; [apply (tri_resize U _ c sz d n old P Hn Hd Ho)|]. intros l (L & F & _). auto. Qed.

Lemma tri_map_all : forall (U : ub -> Prop) A (f : A -> M A) (P : A -> Prop) l, Forall P l ->
  (forall x, P x -> tri (f x) P U) -> tri (mapM f l) (fun r => zlen r = zlen l /\ Forall P r) U.
Proof. intros. apply (tri_mapM U _ _ f P P l); assumption. Qed.

(** ** Entities *)

Record point_in (p : PointEntity) : Prop := {
  pi_tag : int_ok (pe_tag p);
  pi_xyz : size_ok (pe_x p) /\ size_ok (pe_y p) /\ size_ok (pe_z p);
  pi_phys : Forall int_ok (pe_phys p) }.

Record entity_in (e : Entity) : Prop := {
  ei_tag : int_ok (en_tag e);
  ei_min : size_ok (en_min_x e) /\ size_ok (en_min_y e) /\ size_ok (en_min_z e);
  ei_max : size_ok (en_max_x e) /\ size_ok (en_max_y e) /\ size_ok (en_max_z e);
  ei_phys : Forall int_ok (en_phys e);
  ei_bnd : Forall int_ok (en_bnd e) }.

Record entities_in (en : Entities) : Prop := {
  eni_points : Forall point_in (points en);
  eni_curves : Forall entity_in (curves_e en);
  eni_surfaces : Forall entity_in (surfaces_e en);
  eni_volumes : Forall entity_in (volumes_e en) }.

Lemma point_in_default : point_in pe_default.
Proof. split; [exact int_0|repeat split; apply size_0|constructor]. Qed.
Lemma entity_in_default : entity_in en_default.
Proof. split; [exact int_0|repeat split; apply size_0|repeat split; apply size_0|constructor|constructor]. Qed.

Section Any.
Variable U : ub -> Prop.
Hypothesis HU : U Indeterminate.
Hypothesis HA : forall u, U u.

Lemma ints_ascii_in : forall c old, Forall int_ok old -> tri (ints_ascii c old) (Forall int_ok) U.
Proof.
  intros c old H. unfold ints_ascii. rd. rd.
  eapply tri_bind; [apply (tri_resize_all U _ c sz_int 0 _ old int_ok); [apply H1|exact int_0|exact H]|]. intros l [_ F].
  eapply tri_weaken; [apply (tri_map_all U _ _ int_ok l F); intros; apply tri_int; assumption|]. intros r [_ R]. exact R.
Qed.

Lemma ints_binary_in : forall c old, Forall int_ok old -> tri (ints_binary c old) (Forall int_ok) U.
Proof.
  intros c old H. unfold ints_binary. rd. rd. rd.
  eapply tri_bind; [apply (tri_resize_all U _ c sz_int 0 _ old int_ok); [apply H1|exact int_0|exact H]|]. intros l [_ F].
  eapply tri_bind; [apply (tri_raw_array U _ int_ok int_ok l F); intros; apply tri_raw_int|]. intros r [_ R]. rd. apply tri_ret. exact R.
Qed.

Lemma point_ascii_in : forall c p, point_in p -> tri (point_ascii c p) point_in U.
Proof.
  intros c p [P1 (P2 & P3 & P4) P5]. unfold point_ascii. rd. rd. rd. rd.
  eapply tri_bind; [apply ints_ascii_in; exact P5|]. intros l F. apply tri_ret. split; cbn; auto.
Qed.
Lemma point_binary_in : forall c p, point_in p -> tri (point_binary c p) point_in U.
Proof.
  intros c p [P1 (P2 & P3 & P4) P5]. unfold point_binary. rd. rd. rd. rd.
  eapply tri_bind; [apply ints_binary_in; exact P5|]. intros l F. apply tri_ret. split; cbn; auto.
Qed.
Lemma entity_ascii_in : forall c e, entity_in e -> tri (entity_ascii c e) entity_in U.
Proof.
  intros c e [P1 (P2 & P3 & P4) (P5 & P6 & P7) P8 P9]. unfold entity_ascii. rd. rd. rd. rd. rd. rd. rd.
  eapply tri_bind; [apply ints_ascii_in; exact P8|]. intros l F.
  eapply tri_bind; [apply ints_ascii_in; exact P9|]. intros l' F'. apply tri_ret. split; cbn; auto.
Qed.
Lemma entity_binary_in : forall c e, entity_in e -> tri (entity_binary c e) entity_in U.
Proof.
  intros c e [P1 (P2 & P3 & P4) (P5 & P6 & P7) P8 P9]. unfold entity_binary. rd. rd. rd. rd. rd. rd. rd.
  eapply tri_bind; [apply ints_binary_in; exact P8|]. intros l F.
  eapply tri_bind; [apply ints_binary_in; exact P9|]. intros l' F'. apply tri_ret. split; cbn; auto.
Qed.

Lemma resize_entities_in : forall c np nc ns nv en, some size_ok np -> some size_ok nc -> some size_ok ns -> some size_ok nv ->
  entities_in en -> tri (resize_entities c np nc ns nv en) entities_in U.
Proof.
  intros c np nc ns nv en N1 N2 N3 N4 [E1 E2 E3 E4]. unfold resize_entities. rd.
  eapply tri_bind; [apply (tri_resize_all U _ c sz_PointEntity pe_default _ _ point_in); [apply H|exact point_in_default|exact E1]|]. intros p [_ F1]. rd.
  eapply tri_bind; [apply (tri_resize_all U _ c sz_Entity en_default _ _ entity_in); [apply H0|exact entity_in_default|exact E2]|]. intros q [_ F2]. rd.
  eapply tri_bind; [apply (tri_resize_all U _ c sz_Entity en_default _ _ entity_in); [apply H1|exact entity_in_default|exact E3]|]. intros r [_ F3]. rd.
  eapply tri_bind; [apply (tri_resize_all U _ c sz_Entity en_default _ _ entity_in); [apply H2|exact entity_in_default|exact E4]|]. intros t [_ F4].
  apply tri_ret. split; assumption.
Qed.

Lemma entities_41_in : forall c en (ascii : bool), entities_in en ->
  tri (if ascii then v41_load_entities_ascii c en else v41_load_entities_binary c en) entities_in U.
Proof.
  intros c en ascii H. destruct ascii; [unfold v41_load_entities_ascii|unfold v41_load_entities_binary]; repeat rd.
  - eapply tri_bind; [apply resize_entities_in; eassumption|]. intros e0 [E1 E2 E3 E4].
    eapply tri_bind; [apply (tri_map_all U _ _ point_in _ E1); intros; apply point_ascii_in; assumption|]. intros p [_ F1].
    eapply tri_bind; [apply (tri_map_all U _ _ entity_in _ E2); intros; apply entity_ascii_in; assumption|]. intros q [_ F2].
    eapply tri_bind; [apply (tri_map_all U _ _ entity_in _ E3); intros; apply entity_ascii_in; assumption|]. intros r [_ F3].
    eapply tri_bind; [apply (tri_map_all U _ _ entity_in _ E4); intros; apply entity_ascii_in; assumption|]. intros t [_ F4].
    rd. apply tri_ret. split; assumption.
  - eapply tri_bind; [apply resize_entities_in; eassumption|]. intros e0 [E1 E2 E3 E4].
    eapply tri_bind; [apply (tri_map_all U _ _ point_in _ E1); intros; apply point_binary_in; assumption|]. intros p [_ F1].
    eapply tri_bind; [apply (tri_map_all U _ _ entity_in _ E2); intros; apply entity_binary_in; assumption|]. intros q [_ F2].
    eapply tri_bind; [apply (tri_map_all U _ _ entity_in _ E3); intros; apply entity_binary_in; assumption|]. intros r [_ F3].
    eapply tri_bind; [apply (tri_map_all U _ _ entity_in _ E4); intros; apply entity_binary_in; assumption|]. intros t [_ F4].
    apply tri_ret. split; assumption.
Qed.

(** ** Groups, data *)

Definition group_in (g : PhysicalGroup) : Prop := int_ok (pg_dim g) /\ int_ok (pg_tag g).

Lemma groups_in : forall c spec, Forall group_in (physical_groups spec) ->
  tri (load_physical_groups c spec) (fun sp => exists gs, sp = set_physical_groups gs spec /\ Forall group_in gs /\ zlen gs <= INT_MAX) U.
Proof.
  intros c spec H. unfold load_physical_groups. rd. rd.
  eapply tri_bind; [apply (tri_resize U _ c sz_PhysicalGroup pg_default _ _ group_in); [apply to_size_range|split; apply int_0|exact H]|].
  intros l (L & F & B & _).
  eapply tri_bind; [apply (tri_map_all U _ _ group_in l F)|].
  { intros g [G1 G2]. unfold load_group. rd. rd. rd. apply tri_ret. split; assumption. }
  intros r [R1 R2]. rd. apply tri_ret. exists r. split; [reflexivity|]. split; [exact R2|].
  rewrite R1, L. change sz_PhysicalGroup with 40 in B. destruct (Z.le_gt_cases 0 a0) as [N|N].
  - rewrite to_size_id; unfold size_ok, int_ok, INT_MAX, INT_MIN, two64 in *; lia.
  - exfalso. assert (E : to_size a0 = a0 + two64).
    { unfold to_size. symmetry. apply (Z.mod_unique a0 two64 (-1)); unfold int_ok, INT_MIN, two64 in *; lia. }
    rewrite E in B. unfold int_ok, INT_MIN, two64 in *. change (PTRDIFF_MAX / 40) with 230584300921369395 in B. lia.
Qed.

Definition header_in (h : DataHeader) : Prop := Forall dbl_finite (real_tags h) /\ Forall int_ok (int_tags h).
Definition entry_in (e : DataEntry) : Prop := size_ok (de_tag e) /\ int_ok (de_npe e) /\ Forall size_ok (de_data e).
Definition data_in (end_ : bool) (d : Data) : Prop :=
  header_in (d_header d) /\ Forall (fun e => entry_in e /\ (end_ = false -> de_npe e = 0)) (d_entries d).

Lemma finite_0 : dbl_finite 0.
Proof. split; [exact size_0|]. change 0 with (mk_dbl false 0). apply mk_dbl_finite. unfold inf_mag. lia. Qed.

Lemma header_tri_in : forall c, tri (load_data_header c) header_in U.
Proof.
  intros c. unfold load_data_header. rd. rd.
  eapply tri_bind; [apply (tri_resize_all U _ c sz_string [] _ [] (fun _ => True)); [apply H0|exact I|constructor]|].
  intros l1 (_ & F1).
  eapply tri_bind; [apply (tri_mapM U _ _ _ (fun _ => True) (fun _ => True) l1 F1); intros; apply tri_any|]. intros l1' _.
  rd. rd.
  eapply tri_bind; [apply (tri_resize_all U _ c sz_double 0 _ [] dbl_finite); [apply H2|exact finite_0|constructor]|].
  intros l2 (_ & F2).
  eapply tri_bind; [apply (tri_map_all U _ _ dbl_finite l2 F2); intros; apply tri_double_finite; assumption|]. intros l2' [_ F2'].
  rd. rd.
  eapply tri_bind; [apply (tri_resize_all U _ c sz_int 0 _ [] int_ok); [apply H4|exact int_0|constructor]|].
  intros l3 (_ & F3).
  eapply tri_bind; [apply (tri_map_all U _ _ int_ok l3 F3); intros; apply tri_int; assumption|]. intros l3' [_ F3'].
  rd. apply tri_ret. split; assumption.
Qed.

Definition entry_inv (end_ : bool) (e : DataEntry) : Prop := entry_in e /\ (end_ = false -> de_npe e = 0).

Lemma entry_binary_in : forall c is22 fields end_ e, size_ok fields -> entry_inv end_ e -> tri (entry_binary c is22 fields end_ e) (entry_inv end_) U.
Proof.
  intros c is22 fields end_ e HF [(E1 & E2 & E3) E4]. unfold entry_binary. rd. rd.
  apply (tri_bind _ _ _ _ _ (fun n => int_ok n /\ (end_ = false -> n = 0))).
  { destruct end_; [|apply tri_ret; auto]. destruct is22.
    - rd. eapply tri_weaken; [apply (tri_use U _ _ int_ok); [exact H1|exact HU]|]. intros n N. split; [exact N|discriminate].
    - eapply tri_weaken; [apply tri_raw_int|]. intros n N. split; [exact N|discriminate]. }
  intros npe [N1 N2].
  eapply tri_bind; [apply (tri_resize_all U _ c sz_double 0 _ (de_data e) size_ok); [destruct end_; [apply to_size_range|apply HF]|exact size_0|exact E3]|].
  intros l [_ F]. eapply tri_bind; [apply (tri_raw_array U _ size_ok size_ok l F); intros; apply tri_raw_double|].
  intros r [_ R]. apply tri_ret. split; [|exact N2]. split; [apply to_size_range|]. split; assumption.
Qed.

Lemma entry_ascii_in : forall c fields end_ e, size_ok fields -> entry_inv end_ e -> tri (entry_ascii c fields end_ e) (entry_inv end_) U.
Proof.
  intros c fields end_ e HF [(E1 & E2 & E3) E4]. unfold entry_ascii. rd. destruct end_.
  - rd. eapply tri_bind; [apply (tri_resize_all U _ c sz_double 0 _ (de_data e) size_ok); [apply to_size_range|exact size_0|exact E3]|].
    intros l [_ F]. apply (tri_bind _ _ _ _ _ (Forall size_ok)).
    { unfold fill. destruct (_ =? _); [|apply tri_undef; apply HA].
      eapply tri_weaken; [apply (tri_map_all U _ _ size_ok l F); intros; apply tri_double; assumption|]. intros r [_ R]. exact R. }
    intros r R. apply tri_ret. split; [|discriminate]. split; [assumption|]. split; assumption.
  - eapply tri_bind; [apply (tri_resize_all U _ c sz_double 0 _ (de_data e) size_ok); [apply HF|exact size_0|exact E3]|].
    intros l [_ F]. eapply tri_bind; [apply (tri_map_all U _ _ size_ok l F); intros; apply tri_double; assumption|].
    intros r [_ R]. apply tri_ret. split; [|exact E4]. split; [assumption|]. split; assumption.
Qed.

Lemma load_data_in : forall c v bin end_, tri (load_data c v bin end_) (data_in end_) U.
Proof.
  intros c v bin end_. unfold load_data. eapply tri_bind; [apply header_tri_in|]. intros h HH.
  destruct (int_tags h) as [|i0 [|i1 [|i2 more]]] eqn:EI; try apply tri_throw. cbv zeta.
  eapply tri_bind; [apply (tri_resize_all U _ c sz_DataEntry de_default _ [] (entry_inv end_)); [apply to_size_range| |constructor]|].
  { split; [|reflexivity]. split; [exact size_0|]. split; [exact int_0|constructor]. }
  intros e0 [_ F0].
  apply (tri_bind _ _ _ _ _ (Forall (entry_inv end_))).
  { destruct bin.
    - rd. destruct (bytes_eqb v v41s); [|destruct (bytes_eqb v v22s); [|apply tri_throw]];
        (eapply tri_weaken; [apply (tri_map_all U _ _ _ e0 F0); intros; apply entry_binary_in; [apply to_size_range|assumption]|intros r [_ R]; exact R]).
    - eapply tri_weaken; [apply (tri_map_all U _ _ _ e0 F0); intros; apply entry_ascii_in; [apply to_size_range|assumption]|intros r [_ R]; exact R]. }
  intros es F1. rd. apply tri_ret. split; assumption.
Qed.

(** ** Splines *)

Record curve_in (k : Curve) : Prop := {
  ci_fields : size_ok (cv_tag k) /\ size_ok (cv_type k) /\ size_ok (cv_degree k) /\ size_ok (cv_ncp k) /\ size_ok (cv_nknots k) /\ size_ok (cv_weights k);
  ci_len : zlen (cv_data k) = curve_entries (cv_ncp k) (cv_nknots k) (cv_weights k);
  ci_vals : Forall size_ok (cv_data k) }.

Record patch_in (k : Patch) : Prop := {
  pti_fields : size_ok (pt_tag k) /\ size_ok (pt_type k) /\ size_ok (pt_degu k) /\ size_ok (pt_degv k) /\ size_ok (pt_ncp k) /\
    size_ok (pt_nu k) /\ size_ok (pt_nv k) /\ size_ok (pt_weights k);
  pti_len : zlen (pt_data k) = patch_entries (pt_ncp k) (pt_nu k) (pt_nv k) (pt_weights k);
  pti_vals : Forall size_ok (pt_data k) }.

Lemma curve_default_in : curve_in cv_default.
Proof. split; [repeat split; apply size_0|reflexivity|constructor]. Qed.
Lemma patch_default_in : patch_in pt_default.
Proof. split; [repeat split; apply size_0|reflexivity|constructor]. Qed.

Lemma load_curve_in : forall c ascii k, curve_in k -> tri (load_curve c ascii k) curve_in U.
Proof.
  intros c ascii k [(K1 & K2 & K3 & K4 & K5 & K6) _ KD]. unfold load_curve. rd. rd. rd. rd. rd. rd.
  apply (tri_bind _ _ _ _ _ (fun _ => True)); [destruct ascii; [apply tri_ret; exact I|apply tri_any]|]. intros _ _.
  eapply tri_bind; [apply (tri_resize_all U _ c sz_double 0 _ (cv_data k) size_ok); [apply to_size_range|exact size_0|exact KD]|]. intros l [L F].
  apply (tri_bind _ _ _ _ _ (fun r => zlen r = zlen l /\ Forall size_ok r)).
  { destruct ascii; [apply (tri_map_all U _ _ size_ok l F); intros; apply tri_double; assumption|].
    apply (tri_raw_array U _ size_ok size_ok l F); intros; apply tri_raw_double. }
  intros r [R1 R2]. apply tri_ret. split; cbn; [auto 8|etransitivity; [exact R1|exact L]|exact R2].
Qed.

Lemma load_patch_in : forall c ascii k, patch_in k -> tri (load_patch c ascii k) patch_in U.
Proof.
  intros c ascii k [(K1 & K2 & K3 & K4 & K5 & K6 & K7 & K8) _ KD]. unfold load_patch. rd. rd. rd. rd. rd. rd. rd. rd.
  eapply tri_bind; [apply (tri_resize_all U _ c sz_double 0 _ (pt_data k) size_ok); [apply to_size_range|exact size_0|exact KD]|]. intros l [L F].
  apply (tri_bind _ _ _ _ _ (fun r => zlen r = zlen l /\ Forall size_ok r)).
  { destruct ascii; [apply (tri_map_all U _ _ size_ok l F); intros; apply tri_double; assumption|]. rd.
    apply (tri_raw_array U _ size_ok size_ok l F); intros; apply tri_raw_double. }
  intros r [R1 R2]. apply tri_ret. split; cbn; [auto 10|etransitivity; [exact R1|exact L]|exact R2].
Qed.
End Any.

Lemma entities_22_in : forall recs en en', Forall rec_ok recs -> entities_added recs en en' -> entities_in en -> entities_in en'.
Proof.
  intros recs en en' HR (l0 & l1 & l2 & l3 & T0 & T1 & T2 & T3 & E0 & E1 & E2 & E3) [I0 I1 I2 I3].
  assert (K : forall d l, entity_table recs d l -> Forall (fun tp => int_ok (fst tp) /\ Forall int_ok (snd tp)) l).
  { intros d l [_ TP TI]. apply Forall_forall. intros [t ps] HI. cbn [fst snd].
    assert (Q : forall p, In p ps -> int_ok p /\ int_ok t).
    { intros p HP. destruct (proj1 (TI t p)) as (r & more & R1 & _ & R3); [eauto|].
      rewrite Forall_forall in HR. pose proof (ro_tags _ (HR r R1)) as F. rewrite R3 in F.
      inversion F as [|? ? F1 F2]; subst. inversion F2; subst. auto. }
    split; [|apply Forall_forall; intros p HP; apply (Q p HP)].
    destruct ps as [|p ps]; [exfalso; apply (proj2 (TP t [] HI)); reflexivity|]. apply (Q p). left. reflexivity. }
  assert (KP : forall d l, entity_table recs d l -> Forall point_in (map point_of l)).
  { intros d l H. apply Forall_map. eapply Forall_impl; [|exact (K d l H)]. intros tp [A B].
    split; cbn; [exact A|repeat split; apply size_0|exact B]. }
  assert (KE : forall d l, entity_table recs d l -> Forall entity_in (map entity_of l)).
  { intros d l H. apply Forall_map. eapply Forall_impl; [|exact (K d l H)]. intros tp [A B].
    split; cbn; [exact A|repeat split; apply size_0|repeat split; apply size_0|exact B|constructor]. }
  split; [rewrite E0|rewrite E1|rewrite E2|rewrite E3]; apply Forall_app; eauto.
Qed.

Lemma elements_22_in : forall c e en ascii p, entities_in en -> elements_post c e en ascii p -> entities_in (snd p).
Proof.
  intros c e en ascii p HE (recs & A & _ & E). rewrite E.
  refine (entities_22_in recs en _ (ea_recs _ _ _ _ A) _ HE). apply create_all_added. exact (ea_recs _ _ _ _ A).
Qed.

(** ** The loop *)

Record ranged (s : MshSpec) : Prop := {
  rg_ints : int_ok (file_type (mesh_format s)) /\ int_ok (data_size (mesh_format s));
  rg_size : version (mesh_format s) = v41s -> data_size (mesh_format s) = 8;
  rg_entities : entities_in (entities s);
  rg_groups : Forall group_in (physical_groups s) /\ zlen (physical_groups s) <= INT_MAX;
  rg_nd : Forall (data_in false) (node_data s);
  rg_ed : Forall (data_in false) (element_data s);
  rg_end : Forall (data_in true) (element_node_data s);
  rg_curves : Forall curve_in (curves s);
  rg_patches : Forall patch_in (patches s);
  rg_word : word (ns_version s) }.

(** A token is a word, or what was there before. *)
Lemma skip_head : forall b, match skip_ws b with [] => True | x :: _ => is_ws x = false end.
Proof. induction b as [|x b IH]; cbn; [exact I|]. destruct (is_ws x) eqn:E; [exact IH|exact E]. Qed.

Lemma take_token_no_ws : forall b, Forall (fun x => is_ws x = false) (fst (take_token b)).
Proof.
  induction b as [|x b IH]; cbn [take_token]; [constructor|]. destruct (is_ws x) eqn:E; [constructor|].
  destruct (take_token b) as [t r]. constructor; assumption.
Qed.

Lemma token_word : forall old s, word old -> word (fst (rd_token old s)).
Proof.
  intros old s W. unfold rd_token. destruct (sentry s) as [ok s1] eqn:E. destruct ok; [|exact W].
  assert (H : match rest s1 with [] => False | x :: _ => is_ws x = false end).
  { revert E. unfold sentry. destruct (good s); [|discriminate]. pose proof (skip_head (rest s)) as K.
    destruct (skip_ws (rest s)) as [|x b]; [discriminate|]. intro E. injection E as <-. exact K. }
  pose proof (take_token_no_ws (rest s1)) as N. destruct (rest s1) as [|x b]; [contradiction|]. cbn [take_token] in *.
  rewrite H in *. destruct (take_token b) as [t r]. cbn [fst] in *. split; [discriminate|exact N].
Qed.

Lemma ranged_default : ranged spec_default.
Proof.
  split; cbn; try constructor; try constructor; try reflexivity; unfold INT_MAX, INT_MIN; rewrite ?zlen_nil; try lia.
  - discriminate.
  - repeat constructor.
Qed.

Notation AU := (fun _ : ub => True).

Lemma load_elements_in : forall c spec, elements_inv (elements spec) -> entities_in (entities spec) ->
  tri (load_elements c spec) (fun sp => exists e', sp = set_elements e' spec \/
    exists en, entities_in en /\ sp = set_entities en (set_elements e' spec)) AU.
Proof.
  intros c spec HI HE. unfold load_elements. fold (prior_elements (elements spec)). pose proof (prior_elements_inv _ HI) as HP.
  destruct (bytes_eqb _ v41s).
  - apply (tri_bind _ _ _ _ _ (fun _ => True)); [|intros e' _; apply tri_ret; exists e'; auto].
    eapply (tri_weaken _ _ _ elements_inv); [|intros; exact I].
    destruct (_ =? 0); [apply elements_ascii_tri|apply elements_binary_tri]; auto.
  - destruct (bytes_eqb _ v22s); [|apply tri_throw].
    apply (tri_bind _ _ _ _ _ (fun p => entities_in (snd p))); [|intros p H; apply tri_ret; exists (fst p); right; exists (snd p); auto].
    destruct (_ =? 0); eapply tri_weaken.
    + apply v22_load_elements_ascii_tri. exact I.
    + intros p H. exact (elements_22_in _ _ _ _ _ HE H).
    + apply v22_load_elements_binary_tri; [exact I|exact I|apply HP].
    + intros p H. exact (elements_22_in _ _ _ _ _ HE H).
Qed.

Lemma load_curves_in : forall c spec, Forall curve_in (curves spec) ->
  tri (load_curves c spec) (fun sp => exists l, sp = set_curves l spec /\ Forall curve_in l) AU.
Proof.
  intros c spec H. unfold load_curves. destruct (nanospline c).
  2: { apply tri_ret. exists (curves spec). split; [destruct spec; reflexivity|exact H]. }
  rd. apply (tri_bind _ _ _ _ _ size_ok); [apply tri_use; [assumption|exact I]|]. intros n N.
  eapply tri_bind; [apply (tri_resize_all AU _ c sz_Curve cv_default _ _ curve_in); [apply N|exact curve_default_in|exact H]|]. intros l [_ F].
  eapply tri_bind; [apply (tri_map_all AU _ _ curve_in l F); intros; apply load_curve_in; assumption|]. intros r [_ R].
  apply tri_ret. eauto.
Qed.

Lemma load_patches_in : forall c spec, Forall patch_in (patches spec) ->
  tri (load_patches c spec) (fun sp => exists l, sp = set_patches l spec /\ Forall patch_in l) AU.
Proof.
  intros c spec H. unfold load_patches. destruct (nanospline c).
  2: { apply tri_ret. exists (patches spec). split; [destruct spec; reflexivity|exact H]. }
  rd. apply (tri_bind _ _ _ _ _ size_ok); [apply tri_use; [assumption|exact I]|]. intros n N.
  eapply tri_bind; [apply (tri_resize_all AU _ c sz_Patch pt_default _ _ patch_in); [apply N|exact patch_default_in|exact H]|]. intros l [_ F].
  eapply tri_bind; [apply (tri_map_all AU _ _ patch_in l F); intros; apply load_patch_in; assumption|]. intros r [_ R].
  apply tri_ret. eauto.
Qed.

Lemma to_size_8 : forall ds, int_ok ds -> to_size ds = 8 -> ds = 8.
Proof.
  intros ds H E. destruct (Z.le_gt_cases 0 ds) as [N|N].
  - rewrite to_size_id in E; [exact E|]. unfold int_ok, INT_MAX, two64 in *. lia.
  - exfalso. assert (X : to_size ds = ds + two64).
    { unfold to_size. symmetry. apply (Z.mod_unique ds two64 (-1)); unfold int_ok, INT_MIN, two64 in *; lia. }
    rewrite X in E. unfold int_ok, INT_MIN, two64 in *. lia.
Qed.

Lemma format_in : forall spec, ranged spec ->
  tri (load_mesh_format spec) (fun sp => exists f, sp = set_format f spec /\ int_ok (file_type f) /\ int_ok (data_size f) /\
    (version f = v41s -> data_size f = 8)) AU.
Proof.
  intros spec HR. destruct (rg_ints _ HR) as [R1 R2]. unfold load_mesh_format. cbv zeta.
  eapply tri_bind; [apply tri_any|]. intros v _. destruct (negb _ && negb _); [apply tri_throw|].
  eapply tri_bind; [apply tri_int; exact R1|]. intros ft F. eapply tri_bind; [apply tri_int; exact R2|]. intros ds D.
  destruct (bytes_eqb v v41s && negb (to_size ds =? 8)) eqn:E; [apply tri_throw|].
  apply (tri_bind _ _ _ _ _ (fun _ => True)).
  { destruct (negb (ft =? 0)); [|apply tri_ret; exact I]. eapply tri_bind; [apply tri_any|]. intros _ _.
    eapply tri_bind; [apply tri_any|]. intros one _. destruct (negb (one =? 1)); [apply tri_throw|apply tri_ret; exact I]. }
  intros _ _. apply tri_ret. eexists. split; [reflexivity|]. cbn [version file_type data_size].
  split; [exact F|]. split; [exact D|]. intros ->. rewrite (proj2 (bytes_eqb_eq v41s v41s) eq_refl) in E. cbn [andb] in E.
  apply Bool.negb_false_iff, Z.eqb_eq in E. apply to_size_8; assumption.
Qed.

Lemma dispatch_ranged : forall c name spec, spec_inv spec -> ranged spec -> post (dispatch c name spec) ranged.
Proof.
  intros c name spec HI HR. pose proof HR as HR0. destruct HR0 as [[R0 R0'] R1 R2 [R3 R3'] R4 R5 R6 R7 R8 R9].
  unfold dispatch.
  destruct (bytes_eqb name (str "$MeshFormat")).
  { intros s a s' E. destruct (tri_post _ _ _ (tri_mono _ _ _ _ (format_in spec HR)) _ _ _ E) as (f & -> & F1 & F2 & F3). split; cbn; auto. }
  destruct (bytes_eqb name (str "$Entities")).
  { intros s a s' E. assert (T : tri (load_entities c spec) (fun sp => exists en, sp = set_entities en spec /\ entities_in en) AU).
    { unfold load_entities. cbv zeta. destruct (bytes_eqb _ v41s).
      - eapply tri_bind; [apply (entities_41_in AU I)|]; [exact R2|]. intros en HE. apply tri_ret. eauto.
      - destruct (bytes_eqb _ v22s); [apply tri_throw|]. apply tri_ret. exists (entities spec). split; [destruct spec; reflexivity|exact R2]. }
    destruct (tri_post _ _ _ (tri_mono _ _ _ _ T) _ _ _ E) as (f & -> & F1). split; cbn; auto. }
  destruct (bytes_eqb name (str "$PhysicalNames")).
  { intros s a s' E. destruct (tri_post _ _ _ (tri_mono _ _ _ _ (groups_in AU I c spec R3)) _ _ _ E) as (f & -> & F1). split; cbn; auto. }
  destruct (bytes_eqb name (str "$Nodes")).
  { intros s a s' E. destruct (tri_post _ _ _ (tri_mono _ _ _ _ (load_nodes_inv c spec (si_nodes _ HI))) _ _ _ E) as (n' & -> & _). split; cbn; auto. }
  destruct (bytes_eqb name (str "$Elements")).
  { intros s a s' E. destruct (tri_post _ _ _ (tri_mono _ _ _ _ (load_elements_in c spec (si_elements _ HI) R2)) _ _ _ E) as (e' & [->|(en & H & ->)]);
      split; cbn; auto. }
  destruct (bytes_eqb name (str "$NodeData")).
  { unfold load_node_data. eapply post_bind; [exact (tri_post _ _ _ (tri_mono _ _ _ _ (load_data_in AU I (fun _ => I) c _ _ _)))|].
    intros d Hd. apply post_ret. split; cbn; auto. apply Forall_app. split; [assumption|]. constructor; [exact Hd|constructor]. }
  destruct (bytes_eqb name (str "$ElementData")).
  { unfold load_element_data. eapply post_bind; [exact (tri_post _ _ _ (tri_mono _ _ _ _ (load_data_in AU I (fun _ => I) c _ _ _)))|].
    intros d Hd. apply post_ret. split; cbn; auto. apply Forall_app. split; [assumption|]. constructor; [exact Hd|constructor]. }
  destruct (bytes_eqb name (str "$ElementNodeData")).
  { unfold load_element_node_data. eapply post_bind; [exact (tri_post _ _ _ (tri_mono _ _ _ _ (load_data_in AU I (fun _ => I) c _ _ _)))|].
    intros d Hd. apply post_ret. split; cbn; auto. apply Forall_app. split; [assumption|]. constructor; [exact Hd|constructor]. }
  destruct (bytes_eqb name (str "$NanoSplineFormat")).
  { intros s a s' E. assert (T : tri (load_nanospline_format spec) (fun sp => exists v, sp = set_ns_version v spec /\ word v) AU).
    { unfold load_nanospline_format. apply (tri_bind _ _ _ _ _ word); [|intros v W; apply tri_ret; eauto].
      apply tri_op. intro s0. apply token_word. exact R9. }
    destruct (tri_post _ _ _ (tri_mono _ _ _ _ T) _ _ _ E) as (v & -> & W). split; cbn; auto. }
  destruct (bytes_eqb name (str "$Curves")).
  { intros s a s' E. destruct (tri_post _ _ _ (tri_mono _ _ _ _ (load_curves_in c spec R7)) _ _ _ E) as (f & -> & F1). split; cbn; auto. }
  destruct (bytes_eqb name (str "$Patches")).
  { intros s a s' E. destruct (tri_post _ _ _ (tri_mono _ _ _ _ (load_patches_in c spec R8)) _ _ _ E) as (f & -> & F1). split; cbn; auto. }
  post_frame ltac:(exact HR).
Qed.

Lemma ranged_ends : forall c b raw, ends_with c b raw -> spec_inv raw /\ ranged raw.
Proof.
  intros c b raw (s & R & _). refine (reached_inv c b (fun s => spec_inv s /\ ranged s) _ _ _ R).
  - split; [exact spec_inv_default|exact ranged_default].
  - intros name spec s0 spec' s' _ _ [HI HR] ED. split; [exact (dispatch_inv c name spec HI _ _ _ ED)|exact (dispatch_ranged c name spec HI HR _ _ _ ED)].
Qed.

(** ** Consistent *)

Section Consistent.
Variables (c : cfg) (a : bool).

Lemma dbls_ok : forall l, Forall size_ok l -> (a = true -> Forall finite l) -> Forall (dbl_ok a) l.
Proof.
  intros l S F. rewrite Forall_forall in *. intros x Hx. split; [auto|]. intro A. specialize (F A). try rewrite Forall_forall in F. auto.
Qed.

Lemma node_block_consistent : forall b, node_block_loaded b -> 0 <= node_width b /\ nb_num b * node_width b < 2 ^ 64 ->
  fits c sz_size (zlen (nb_tags b)) /\ fits c sz_double (zlen (nb_data b)) ->
  (a = true -> Forall finite (nb_data b) /\ (ndebug c = false -> 0 <= nb_parametric b <= 3)) -> node_block_ok c a b.
Proof.
  intros b [L1 L2 L3 L4 L5 L6 L7 L8 L9] [W1 W2] [F1 F2] T. fold (node_width b) in L6.
  split; try assumption; try (symmetry; assumption).
  - intros A. apply (proj2 (T A)).
  - split; [exact W1|]. unfold node_width. destruct (nb_parametric b =? 1) eqn:E; [|unfold INT_MAX; lia].
    apply Z.eqb_eq in E. specialize (L9 E). lia.
  - rewrite L6. apply Z.mod_small. split; [|exact W2]. apply Z.mul_nonneg_nonneg; [apply L5|exact W1].
  - apply dbls_ok; [exact L8|]. intro A. apply (T A).
Qed.

Lemma element_block_consistent : forall b, element_block_loaded b ->
  (forall n, gmsh_nodes (eb_type b) = Some n -> eb_num b * (n + 1) < 2 ^ 64) -> fits c sz_size (zlen (eb_data b)) -> element_block_ok c b.
Proof.
  intros b [L1 L2 L3 (n & L4 & L5) L6] W F. split; try assumption. exists n. split; [exact L4|]. rewrite L5. apply Z.mod_small.
  split; [|exact (W n L4)]. apply Z.mul_nonneg_nonneg; [apply L3|]. pose proof (gmsh_nodes_spec _ _ L4). lia.
Qed.

Lemma point_consistent : forall p, point_in p -> roomy_point c p -> (a = true -> finite (pe_x p) /\ finite (pe_y p) /\ finite (pe_z p)) -> point_ok c a p.
Proof.
  intros p [P1 (P2 & P3 & P4) P5] R T. split; [exact P1| |split; assumption].
  split; [|split]; (split; [assumption|intro A; apply (T A)]).
Qed.

Lemma entity_consistent : forall e, entity_in e -> roomy_entity c e ->
  (a = true -> (finite (en_min_x e) /\ finite (en_min_y e) /\ finite (en_min_z e)) /\ finite (en_max_x e) /\ finite (en_max_y e) /\ finite (en_max_z e)) ->
  entity_ok c a e.
Proof.
  intros e [P1 (P2 & P3 & P4) (P5 & P6 & P7) P8 P9] [R1 R2] T. split; [exact P1| | |split; assumption|split; assumption];
  (split; [|split]); (split; [assumption|intro A; apply (T A)]).
Qed.

Lemma data_consistent : forall end_ d, data_loaded end_ d -> data_in end_ d -> roomy_data c d ->
  Forall (fun i => 0 <= i) (firstn 2 (skipn 1 (int_tags (d_header d)))) ->
  (end_ = true -> Forall (fun e => 0 <= de_npe e) (d_entries d)) ->
  (a = true -> Forall (fun e => Forall finite (de_data e)) (d_entries d)) -> data_ok c a end_ d.
Proof.
  intros end_ d (i0 & k & m & more & EI & LE & FE) [[H1 H2] HE] (R1 & R2 & R3 & R4 & R5) SB SE T.
  split; try assumption; [split; assumption|].
  rewrite EI in SB, H2. cbn [skipn firstn] in SB.
  inversion SB as [|? ? K0 SB1]; subst. inversion SB1 as [|? ? M0 _]; subst.
  inversion H2 as [|? ? _ H3]; subst. inversion H3 as [|? ? K1 H4]; subst. inversion H4 as [|? ? M1 _]; subst.
  rewrite (Z.mod_small m) in LE by (split; [exact M0|]; change (2 ^ 64) with two64; unfold int_ok, INT_MAX, two64 in *; lia).
  exists i0, k, more. split; [rewrite LE; exact EI|].
  rewrite Forall_forall in *. intros e He. destruct (HE e He) as [(E1 & E2 & E3) E4]. specialize (FE e He). specialize (R5 e He).
  assert (N : end_ = true -> 0 <= de_npe e). { intro X. specialize (SE X). try rewrite Forall_forall in SE. auto. }
  split; [exact E1| | | |exact R5].
  - destruct end_; [split; [apply N; reflexivity|apply E2]|apply E4; reflexivity].
  - rewrite FE. destruct end_.
    + specialize (N eq_refl). apply Z.mod_small. split; [apply Z.mul_nonneg_nonneg; assumption|].
      apply Z.le_lt_trans with (INT_MAX * INT_MAX); [|reflexivity].
      apply Z.mul_le_mono_nonneg; [exact K0|apply K1|exact N|apply E2].
    + apply Z.mod_small. split; [exact K0|]. change (2 ^ 64) with two64. unfold int_ok, INT_MAX, two64 in *. lia.
  - apply dbls_ok; [exact E3|]. intro A. specialize (T A). try rewrite Forall_forall in T. auto.
Qed.

Lemma curve_consistent : forall k, curve_in k -> cv_ncp k * cp_dim (cv_weights k) + cv_nknots k < 2 ^ 64 ->
  fits c sz_double (zlen (cv_data k)) -> (a = true -> Forall finite (cv_data k)) -> curve_ok c a k.
Proof.
  intros k [F L V] W M T. split; [exact F| |apply dbls_ok; assumption|exact M].
  destruct F as (_ & _ & _ & N1 & N2 & _). rewrite L. unfold curve_entries. fold (cp_dim (cv_weights k)).
  assert (D : 3 <= cp_dim (cv_weights k)) by (unfold cp_dim; destruct (0 <? _); lia). destruct N1 as [N1 _], N2 as [N2 _].
  assert (P : 0 <= cv_ncp k * cp_dim (cv_weights k)) by (apply Z.mul_nonneg_nonneg; lia).
  change (2 ^ 64) with two64 in W. rewrite (to_size_id (cv_ncp k * _)) by lia. apply to_size_id. lia.
Qed.

Lemma patch_consistent : forall k, patch_in k -> pt_ncp k * cp_dim (pt_weights k) + pt_nu k + pt_nv k < 2 ^ 64 ->
  fits c sz_double (zlen (pt_data k)) -> (a = true -> Forall finite (pt_data k)) -> patch_ok c a k.
Proof.
  intros k [F L V] W M T. split; [exact F| |apply dbls_ok; assumption|exact M].
  destruct F as (_ & _ & _ & _ & N1 & N2 & N3 & _). rewrite L. unfold patch_entries. fold (cp_dim (pt_weights k)).
  assert (D : 3 <= cp_dim (pt_weights k)) by (unfold cp_dim; destruct (0 <? _); lia). destruct N1 as [N1 _], N2 as [N2 _], N3 as [N3 _].
  assert (P : 0 <= pt_ncp k * cp_dim (pt_weights k)) by (apply Z.mul_nonneg_nonneg; lia).
  change (2 ^ 64) with two64 in W. rewrite (to_size_id (pt_ncp k * _)) by lia. rewrite (to_size_id (_ + pt_nu k)) by lia. apply to_size_id. lia.
Qed.

Lemma Forall_3 : forall A (P Q R T : A -> Prop) (l : list A), Forall P l -> Forall Q l -> (a = true -> Forall R l) ->
  (forall x, P x -> Q x -> (a = true -> R x) -> T x) -> Forall T l.
Proof.
  intros A P Q R T l HP HQ HR H. rewrite Forall_forall in *. intros x Hx. apply H; auto.
Qed.

Theorem loaded_consistent : forall s, loaded s -> ranged s -> version (mesh_format s) = str "4.1" ->
  sober s -> roomy c s -> (a = true -> textual c s) -> consistent41 c a (as_type a s).
Proof.
  intros s [LN1 (LN2 & LN3 & LN4) LN5 LE1 (LE2 & LE3 & LE4) LE5 LD1 LD2 LD3] [_ G1 [G2 G3 G4 G5] [G6 G7] G8 G9 G10 G11 G12 G13] V
    [S1 S2 S3 S4 S5 S6] [M1 M2 M3 M4 [M5 M5'] [M6 M6'] [M7 M7'] [M8 M8'] M9 M10 [M11 M11'] [M12 M12']] T.
  apply Forall_app in S3. destruct S3 as [S3a S3b]. apply Forall_app in S3b. destruct S3b as [S3b S3c].
  apply Forall_app in M10. destruct M10 as [M10a M10b]. apply Forall_app in M10b. destruct M10b as [M10b M10c].
  assert (TE : a = true -> forall l, l = curves_e (entities s) \/ l = surfaces_e (entities s) \/ l = volumes_e (entities s) ->
    Forall (fun e => (finite (en_min_x e) /\ finite (en_min_y e) /\ finite (en_min_z e)) /\
                  finite (en_max_x e) /\ finite (en_max_y e) /\ finite (en_max_z e)) l).
  { intros A l HL. pose proof (tx_entities _ _ (T A)) as X. apply Forall_app in X. destruct X as [X Y]. apply Forall_app in Y.
    destruct Y as [Y Z0]. destruct HL as [->|[->| ->]]; assumption. }
  assert (TD : a = true -> forall l, l = node_data s \/ l = element_data s \/ l = element_node_data s ->
    Forall (fun d => Forall (fun e => Forall finite (de_data e)) (d_entries d)) l).
  { intros A l HL. pose proof (tx_data _ _ (T A)) as X. apply Forall_app in X. destruct X as [X Y]. apply Forall_app in Y.
    destruct Y as [Y Z0]. destruct HL as [->|[->| ->]]; assumption. }
  assert (KD : forall end_ l, Forall (data_loaded end_) l -> Forall (data_in end_) l -> Forall (roomy_data c) l ->
    Forall (fun d => Forall (fun i => 0 <= i) (firstn 2 (skipn 1 (int_tags (d_header d))))) l ->
    (end_ = true -> Forall (fun d => Forall (fun e => 0 <= de_npe e) (d_entries d)) l) ->
    (a = true -> Forall (fun d => Forall (fun e => Forall finite (de_data e)) (d_entries d)) l) -> Forall (data_ok c a end_) l).
  { intros end_ l A1 A2 A3 A4 A5 A6. rewrite Forall_forall in *. intros d Hd. apply data_consistent; auto. }
  split; cbn.
  - exact V.
  - destruct a; reflexivity.
  - apply G1. exact V.
  - split; cbn.
    + split; assumption.
    + exact LN2.
    + intros _. split; try assumption.
      refine (Forall_3 _ _ _ _ _ _ LN5 (Forall_and S1 M2) (fun A => tx_nodes _ _ (T A)) _).
      intros b B1 [B2 B3] B4. apply node_block_consistent; assumption.
    + exact LE2.
    + intros _. split; try assumption.
      rewrite Forall_forall in *. intros b Hb. apply element_block_consistent; auto.
    + apply KD; auto. discriminate.
    + apply KD; auto. discriminate.
    + apply KD; auto.
  - split; (split; [|assumption]).
    + refine (Forall_3 _ _ _ _ _ _ G2 M5' (fun A => tx_points _ _ (T A)) _). exact point_consistent.
    + refine (Forall_3 _ _ _ _ _ _ G3 M6' (fun A => TE A _ _) _); [auto|exact entity_consistent].
    + refine (Forall_3 _ _ _ _ _ _ G4 M7' (fun A => TE A _ _) _); [auto|exact entity_consistent].
    + refine (Forall_3 _ _ _ _ _ _ G5 M8' (fun A => TE A _ _) _); [auto|exact entity_consistent].
  - intros _. split; cbn; [exact G13| |].
    + split; [|exact M11]. refine (Forall_3 _ _ _ _ _ _ G11 (Forall_and S5 M11') (fun A => tx_curves _ _ (T A)) _).
      intros k K1 [K2 K3] K4. apply curve_consistent; assumption.
    + split; [|exact M12]. refine (Forall_3 _ _ _ _ _ _ G12 (Forall_and S6 M12') (fun A => tx_patches _ _ (T A)) _).
      intros k K1 [K2 K3] K4. apply patch_consistent; assumption.
Qed.
End Consistent.

Theorem resaved : forall c c' a b s, load_msh c b = Ok s -> version (mesh_format s) = str "4.1" ->
  sober s -> roomy c' s -> (a = true -> textual c' s) -> consistent41 c' a (as_type a s).
Proof.
  intros c c' a b s HL V HS HM HT. apply loaded_consistent; auto.
  - apply (loaded_not22 c b s HL). rewrite V. discriminate.
  - destruct (load_ends c b s HL) as (raw & HE & HP). pose proof (proj2 (ranged_ends c b raw HE)) as HR.
    destruct (post_data c raw s HP) as (_ & _ & _ & EF).
    unfold post_process in HP. destruct (bytes_eqb (version (mesh_format raw)) v22s) eqn:E; [|injection HP as <-; exact HR].
    exfalso. apply bytes_eqb_eq in E. rewrite EF, E in V. discriminate V.
Qed.
