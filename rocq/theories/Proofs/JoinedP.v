(** Files written one after the other: each is read on top of what the ones before it left. *)

From Verif Require Import Model.Save Spec.Consistent Spec.Steps Spec.Rounding Spec.Text41 Spec.Warnings Spec.Joined
  Proofs.BytesP Proofs.RtBase Proofs.ShowP Proofs.WriteP Proofs.RtStep Proofs.Rt41A Proofs.Rt41B
  Proofs.Compose Proofs.Rt41 Proofs.RoundP Proofs.TextP Proofs.Text41P.

Ltac Zify.zify_post_hook ::= idtac.

(** ** Saved files *)

Lemma unless_some : forall A (l l' : list A), (0 <? zlen l') = true -> unless_empty l l' = l'.
Proof. intros A l [|x l'] H; [discriminate H|reflexivity]. Qed.
Lemma unless_none : forall A (l l' : list A), (0 <? zlen l') = false -> unless_empty l l' = l.
Proof.
  intros A l [|x l'] H; [reflexivity|]. apply Z.ltb_ge in H. unfold zlen in H. cbn [List.length] in H. lia.
Qed.

(** Use a lemma about any spec for the one being read into. *)
Ltac here lem := match goal with |- PIECE _ _ ?x _ => apply (lem x); auto end.

Section Printed.
Context {print : printer} {back : rounder} {RBK : reads_back print back}.

Lemma entities_some : forall a e e', negb (entities_empty e) = true ->
  over_entities e' (entities_via a back e) = entities_via a back e.
Proof.
  intros a [[|p ps] [|q qs] [|r rs] [|t ts]] e' H; try reflexivity. discriminate H.
Qed.
Lemma entities_none : forall a e e', negb (entities_empty e) = false ->
  over_entities e' (entities_via a back e) = e'.
Proof.
  intros a [ps qs rs ts] e' H. apply negb_false_iff in H. unfold entities_empty in H. rewrite !andb_true_iff in H.
  destruct H as [[[E1 E2] E3] E4]. apply Z.eqb_eq in E1, E2, E3, E4. cbn [points curves_e surfaces_e volumes_e] in *.
  assert (Z0 : forall A (l : list A), zlen l = 0 -> l = []).
  { intros A [|x l] Q; [reflexivity|]. unfold zlen in Q. cbn [List.length] in Q. lia. }
  apply Z0 in E1, E2, E3, E4. subst. reflexivity.
Qed.

Lemma nodes_via_count : forall a n, n_num_nodes (nodes_via a back n) = n_num_nodes n.
Proof. intros a n. unfold nodes_via. destruct (n_num_nodes n =? 0) eqn:E; [apply Z.eqb_eq in E; auto|reflexivity]. Qed.
Lemma elements_via_count : forall e, e_num_elements (elements_via e) = e_num_elements e.
Proof. intro e. unfold elements_via. destruct (e_num_elements e =? 0) eqn:E; [apply Z.eqb_eq in E; auto|reflexivity]. Qed.

Section DataKind.
Variables (c : cfg) (v : bytes) (a : bool) (name : bytes) (pn : bool).
Variables (get : MshSpec -> list Data) (set : list Data -> MshSpec -> MshSpec).
Hypothesis Hv : v = v41s \/ v = v22s.
Hypothesis name_token : token (x24 :: name).
Hypothesis name_known : known_marker (x24 :: name) = true.
Hypothesis disp : forall spec, dispatch c (x24 :: name) spec =
  (d <- load_data c (version (mesh_format spec)) (0 <? file_type (mesh_format spec)) pn ;;
   ret (set (get spec ++ [d]) spec)).
Hypothesis get_set : forall l spec, get (set l spec) = l.
Hypothesis set_set : forall l l' spec, set l (set l' spec) = set l spec.
Hypothesis set_get : forall spec, set (get spec) spec = spec.
Hypothesis fmt_set : forall l spec, mesh_format (set l spec) = mesh_format spec.

Lemma data_on : forall s ds spec, fmt v a s -> fmt v a spec -> Forall (data_ok c a pn) ds ->
  PIECE c (if 0 <? zlen ds then save_data_sections name pn s ds else wret)
    spec (set (get spec ++ map (data_via a back) ds) spec).
Proof.
  intros s ds spec F F' H. destruct (0 <? zlen ds) eqn:E.
  - apply (data_PIECE c v); assumption.
  - apply Z.ltb_ge in E. destruct ds as [|d ds]; [|unfold zlen in E; cbn [List.length] in E; lia].
    cbn [map]. rewrite app_nil_r, set_get. apply PIECE_ret.
Qed.
End DataKind.

Lemma groups_on : forall c s spec, groups_ok c (physical_groups s) ->
  PIECE c (if 0 <? zlen (physical_groups s) then save_physical_groups s else wret)
    spec (set_physical_groups (unless_empty (physical_groups spec) (physical_groups s)) spec).
Proof.
  intros c s spec H. destruct (0 <? zlen (physical_groups s)) eqn:E.
  - rewrite (unless_some _ _ _ E). apply PIECE1_PIECE.
    unfold save_physical_groups.
    assert (EQ : forall w1 w2 w3 w4, w1 +++ w2 +++ w3 +++ w4 = w1 +++ (w2 +++ w3) +++ w4).
    { intros [x1 [[]|e1|u1| |]] [x2 [[]|e2|u2| |]] [x3 [[]|e3|u3| |]] [x4 r4]; cbn [wseq fst snd]; rewrite ?app_assoc; reflexivity. }
    rewrite EQ.
    apply (section_SOLE_RT c (str "$PhysicalNames") _ (groups_text (physical_groups s))); [tok|reflexivity| |].
    + unfold groups_text. erewrite wseq_ok; [|apply out_ok|apply wfor_ok; intros; reflexivity].
      rewrite <- app_assoc. reflexivity.
    + apply (load_groups_RT c spec). exact H.
  - rewrite (unless_none _ _ _ E). replace (set_physical_groups _ spec) with spec by (destruct spec; reflexivity). apply PIECE_ret.
Qed.

Lemma entities_on : forall c a s spec, fmt41 a s -> fmt41 a spec -> entities_ok c a (entities s) ->
  PIECE c (if negb (entities_empty (entities s)) then save_entities s else wret)
    spec (set_entities (over_entities (entities spec) (entities_via a back (entities s))) spec).
Proof.
  intros c a s spec [Hv Ht] [Hv' Ht'] H. destruct (negb (entities_empty (entities s))) eqn:E.
  - rewrite (entities_some a _ _ E). apply PIECE1_PIECE.
    unfold save_entities. cbv zeta. rewrite Hv, Ht. cbn [bytes_eqb].
    change (bytes_eqb v41s v22s) with false. change (bytes_eqb v41s v41s) with true. cbv iota.
    destruct a; cbn [ftype Z.eqb].
    + apply (section_SOLE_RT c (str "$Entities") _ (entities_text (entities s))); [tok|reflexivity| |].
      * apply save_entities_a.
      * change (dispatch c (str "$Entities") spec) with (load_entities c spec). unfold load_entities.
        rewrite Hv', Ht'. change (bytes_eqb v41s v41s) with true. cbn [ftype Z.eqb]. cbv iota zeta.
        apply (RT_map_ret _ _ _ (fun en => set_entities en spec)). apply load_entities_a. exact H.
    + apply (section_SOLE c (str "$Entities") _ (entities_bytes (entities s)) _ _ []); [tok|reflexivity| | |constructor].
      * apply save_entities_b.
      * change (dispatch c (str "$Entities") spec) with (load_entities c spec). unfold load_entities.
        rewrite Hv', Ht'. change (bytes_eqb v41s v41s) with true. cbn [ftype Z.eqb]. cbv iota zeta.
        apply (EX_map_ret _ _ _ (fun en => set_entities en spec)). apply load_entities_b. exact H.
  - rewrite (entities_none a _ _ E). replace (set_entities _ spec) with spec by (destruct spec; reflexivity). apply PIECE_ret.
Qed.

Lemma nodes_on : forall c a s spec, fmt41 a s -> fmt41 a spec ->
  size_ok (n_num_nodes (nodes s)) -> (n_num_nodes (nodes s) <> 0 -> nodes_ok c a (nodes s)) ->
  PIECE c (if 0 <? n_num_nodes (nodes s) then save_nodes s else wret)
    spec (set_nodes (if n_num_nodes (nodes_via a back (nodes s)) =? 0 then nodes spec else nodes_via a back (nodes s)) spec).
Proof.
  intros c a s spec [Hv Ht] [Hv' Ht'] Hn H. rewrite nodes_via_count. unfold nodes_via.
  destruct (0 <? n_num_nodes (nodes s)) eqn:E.
  - apply Z.ltb_lt in E. replace (n_num_nodes (nodes s) =? 0) with false by (symmetry; apply Z.eqb_neq; lia).
    specialize (H ltac:(lia)). apply PIECE1_PIECE.
    unfold save_nodes. cbv zeta. rewrite Hv, Ht. change (bytes_eqb v41s v41s) with true. cbv iota.
    destruct a; cbn [ftype Z.eqb].
    + apply (section_SOLE_RT c (str "$Nodes") _ (nodes_text (nodes s))); [tok|reflexivity| |].
      * eapply save_nodes_a; exact H.
      * change (dispatch c (str "$Nodes") spec) with (load_nodes c spec). unfold load_nodes. cbv zeta.
        rewrite Hv', Ht'. change (bytes_eqb v41s v41s) with true. cbn [ftype Z.eqb]. cbv iota.
        apply (RT_map_ret _ _ _ (fun en => set_nodes en spec)). apply load_nodes_a; assumption.
    + apply (section_SOLE c (str "$Nodes") _ (nodes_bytes (nodes s)) _ _ []); [tok|reflexivity| | |constructor].
      * eapply save_nodes_b; exact H.
      * change (dispatch c (str "$Nodes") spec) with (load_nodes c spec). unfold load_nodes. cbv zeta.
        rewrite Hv', Ht'. change (bytes_eqb v41s v41s) with true. cbn [ftype Z.eqb]. cbv iota.
        apply (EX_map_ret _ _ _ (fun en => set_nodes en spec)). apply load_nodes_b; assumption.
  - apply Z.ltb_ge in E. destruct Hn as [Hn _].
    replace (n_num_nodes (nodes s) =? 0) with true by (symmetry; apply Z.eqb_eq; lia).
    replace (set_nodes _ spec) with spec by (destruct spec; reflexivity). apply PIECE_ret.
Qed.

Lemma elements_on : forall c a s spec, fmt41 a s -> fmt41 a spec ->
  size_ok (e_num_elements (elements s)) -> (e_num_elements (elements s) <> 0 -> elements_ok c (elements s)) ->
  PIECE c (if 0 <? e_num_elements (elements s) then save_elements s else wret)
    spec (set_elements (if e_num_elements (elements_via (elements s)) =? 0 then elements spec else elements_via (elements s)) spec).
Proof.
  intros c a s spec [Hv Ht] [Hv' Ht'] Hn H. rewrite elements_via_count. unfold elements_via.
  destruct (0 <? e_num_elements (elements s)) eqn:E.
  - apply Z.ltb_lt in E. replace (e_num_elements (elements s) =? 0) with false by (symmetry; apply Z.eqb_neq; lia).
    specialize (H ltac:(lia)). apply PIECE1_PIECE.
    unfold save_elements. cbv zeta. rewrite Hv, Ht. change (bytes_eqb v41s v41s) with true. cbv iota.
    destruct a; cbn [ftype Z.eqb].
    + apply (section_SOLE_RT c (str "$Elements") _ (elements_text (elements s))); [tok|reflexivity| |].
      * eapply save_elements_a; exact H.
      * change (dispatch c (str "$Elements") spec) with (load_elements c spec). unfold load_elements. cbv zeta.
        rewrite Hv', Ht'. change (bytes_eqb v41s v41s) with true. cbn [ftype Z.eqb]. cbv iota.
        apply (RT_map_ret _ _ _ (fun en => set_elements en spec)). apply load_elements_a; assumption.
    + apply (section_SOLE c (str "$Elements") _ (elements_bytes (elements s)) _ _ []); [tok|reflexivity| | |constructor].
      * eapply save_elements_b; exact H.
      * change (dispatch c (str "$Elements") spec) with (load_elements c spec). unfold load_elements. cbv zeta.
        rewrite Hv', Ht'. change (bytes_eqb v41s v41s) with true. cbn [ftype Z.eqb]. cbv iota.
        apply (EX_map_ret _ _ _ (fun en => set_elements en spec)). apply load_elements_b; assumption.
  - apply Z.ltb_ge in E. destruct Hn as [Hn _].
    replace (e_num_elements (elements s) =? 0) with true by (symmetry; apply Z.eqb_eq; lia).
    replace (set_elements _ spec) with spec by (destruct spec; reflexivity). apply PIECE_ret.
Qed.

Lemma curves_on : forall c v a s spec, nanospline c = true -> fmt v a s -> fmt v a spec ->
  Forall (curve_ok c a) (curves s) -> fits c sz_Curve (zlen (curves s)) ->
  PIECE c (if 0 <? zlen (curves s) then save_curves c s else wret)
    spec (set_curves (unless_empty (curves spec) (map (curve_via a back) (curves s))) spec).
Proof.
  intros c v a s spec Hns [Fv Ft] [Fv' Ft'] H Hm.
  assert (X : zlen (map (curve_via a back) (curves s)) = zlen (curves s)) by (unfold zlen; rewrite map_length; reflexivity).
  destruct (0 <? zlen (curves s)) eqn:E; rewrite <- X in E.
  - rewrite (unless_some _ _ _ E). apply PIECE1_PIECE.
    unfold save_curves. rewrite Ft, ftype_eqb, wassoc4. rewrite Forall_forall in H.
    eapply (section_SOLE_RT c (str "$Curves")); [tok|reflexivity| |].
    + apply wseq_ok; [apply out_ok|]. apply wfor_ok. intros k Hk. apply save_curve_ab. auto.
    + change (dispatch c (str "$Curves") spec) with (load_curves c spec). unfold load_curves.
      rewrite Hns, Ft', ftype_eqb. rewrite <- app_assoc.
      eapply RT_size_opt; [eapply fits_size_ok; [|exact Hm]; reflexivity|apply ws_endl|discriminate|].
      eapply RT_bind0; [intros; reflexivity|].
      destruct (fits_resize Curve c sz_Curve cv_default (zlen (curves s)) (curves spec)) as (v1 & E1 & L1);
        [reflexivity|apply zlen_nonneg|exact Hm|].
      eapply RT_bind0; [intros; apply lift_ok; exact E1|].
      eapply RT_last; [|apply RT_ret].
      apply mapM_RT'; [apply zlen_length; exact L1|]. intros; apply load_curve_ab; auto.
  - rewrite (unless_none _ _ _ E). replace (set_curves _ spec) with spec by (destruct spec; reflexivity). apply PIECE_ret.
Qed.

Lemma patches_on : forall c v a s spec, nanospline c = true -> fmt v a s -> fmt v a spec ->
  Forall (patch_ok c a) (patches s) -> fits c sz_Patch (zlen (patches s)) ->
  PIECE c (if 0 <? zlen (patches s) then save_patches c s else wret)
    spec (set_patches (unless_empty (patches spec) (map (patch_via a back) (patches s))) spec).
Proof.
  intros c v a s spec Hns [Fv Ft] [Fv' Ft'] H Hm.
  assert (X : zlen (map (patch_via a back) (patches s)) = zlen (patches s)) by (unfold zlen; rewrite map_length; reflexivity).
  destruct (0 <? zlen (patches s)) eqn:E; rewrite <- X in E.
  - rewrite (unless_some _ _ _ E). apply PIECE1_PIECE.
    unfold save_patches. rewrite Ft, ftype_eqb, wassoc4. rewrite Forall_forall in H.
    eapply (section_SOLE_RT c (str "$Patches")); [tok|reflexivity| |].
    + apply wseq_ok; [apply out_ok|]. apply wfor_ok. intros k Hk. apply save_patch_ab. auto.
    + change (dispatch c (str "$Patches") spec) with (load_patches c spec). unfold load_patches.
      rewrite Hns, Ft', ftype_eqb. rewrite <- app_assoc.
      eapply RT_size_opt; [eapply fits_size_ok; [|exact Hm]; reflexivity|apply ws_endl|discriminate|].
      eapply RT_bind0; [intros; reflexivity|].
      destruct (fits_resize Patch c sz_Patch pt_default (zlen (patches s)) (patches spec)) as (v1 & E1 & L1);
        [reflexivity|apply zlen_nonneg|exact Hm|].
      eapply RT_bind0; [intros; apply lift_ok; exact E1|].
      eapply RT_last; [|apply RT_ret].
      apply mapM_RT'; [apply zlen_length; exact L1|]. intros; apply load_patch_ab; auto.
  - rewrite (unless_none _ _ _ E). replace (set_patches _ spec) with spec by (destruct spec; reflexivity). apply PIECE_ret.
Qed.

Lemma node_data_on : forall c v a s spec, v = v41s \/ v = v22s -> fmt v a s -> fmt v a spec ->
  Forall (data_ok c a false) (node_data s) ->
  PIECE c (if 0 <? zlen (node_data s) then save_node_data s else wret)
    spec (set_node_data (node_data spec ++ map (data_via a back) (node_data s)) spec).
Proof.
  intros c v a s spec Hv F F' H. unfold save_node_data.
  apply (data_on c v a (str "NodeData") false node_data set_node_data); auto; try reflexivity.
  - tok.
  - intros []; reflexivity.
Qed.

Lemma element_data_on : forall c v a s spec, v = v41s \/ v = v22s -> fmt v a s -> fmt v a spec ->
  Forall (data_ok c a false) (element_data s) ->
  PIECE c (if 0 <? zlen (element_data s) then save_element_data s else wret)
    spec (set_element_data (element_data spec ++ map (data_via a back) (element_data s)) spec).
Proof.
  intros c v a s spec Hv F F' H. unfold save_element_data.
  apply (data_on c v a (str "ElementData") false element_data set_element_data); auto; try reflexivity.
  - tok.
  - intros []; reflexivity.
Qed.

Lemma element_node_data_on : forall c v a s spec, v = v41s \/ v = v22s -> fmt v a s -> fmt v a spec ->
  Forall (data_ok c a true) (element_node_data s) ->
  PIECE c (if 0 <? zlen (element_node_data s) then save_element_node_data s else wret)
    spec (set_element_node_data (element_node_data spec ++ map (data_via a back) (element_node_data s)) spec).
Proof.
  intros c v a s spec Hv F F' H. unfold save_element_node_data.
  apply (data_on c v a (str "ElementNodeData") true element_node_data set_element_node_data); auto; try reflexivity.
  - tok.
  - intros []; reflexivity.
Qed.

Definition ns_over (c : cfg) (a : bool) (s spec : MshSpec) : MshSpec :=
  if nanospline c then
    set_patches (unless_empty (patches spec) (map (patch_via a back) (patches s)))
      (set_curves (unless_empty (curves spec) (map (curve_via a back) (curves s))) (set_ns_version (ns_version s) spec))
  else spec.

Lemma splines_on : forall c v a s spec, fmt v a s -> fmt v a spec ->
  (nanospline c = true -> splines_ok c a s) ->
  PIECE c
    (if nanospline c then
       save_nanospline_format s +++
       (if 0 <? zlen (curves s) then save_curves c s else wret) +++
       (if 0 <? zlen (patches s) then save_patches c s else wret)
     else wret) spec (ns_over c a s spec).
Proof.
  intros c v a s spec F F' H. unfold ns_over. destruct (nanospline c) eqn:N; [|apply PIECE_ret].
  destruct (H eq_refl) as [Hw [Hc Hcm] [Hp Hpm]].
  eapply PIECE_seq; [apply ns_format_PIECE; exact Hw|].
  eapply PIECE_seq.
  - here (curves_on c v a s).
  - here (patches_on c v a s).
Qed.

(** What builds without the spline library have read holds no splines. *)
Definition ns_plain (c : cfg) (spec : MshSpec) : Prop := nanospline c = false -> ns_version spec = str "1.0".

Lemma piece_on : forall c a s spec, consistent41 c a s -> ns_plain c spec ->
  PIECE c (save_msh c s) spec (over spec (via41 a back (nanospline c) s)).
Proof.
  intros c a s spec [Hv Ht Hd [Kg Knn Kn Kne Ke Knd Ked Kend] Hen Hns] PB.
  assert (Ht' : file_type (mesh_format s) = ftype a) by exact Ht.
  assert (F : fmt41 a s) by (split; assumption).
  assert (P : PIECE c (save_msh c s) spec
    (ns_over c a s
    (set_element_node_data (element_node_data spec ++ map (data_via a back) (element_node_data s))
    (set_element_data (element_data spec ++ map (data_via a back) (element_data s))
    (set_node_data (node_data spec ++ map (data_via a back) (node_data s))
    (set_elements (if e_num_elements (elements_via (elements s)) =? 0 then elements spec else elements_via (elements s))
    (set_nodes (if n_num_nodes (nodes_via a back (nodes s)) =? 0 then nodes spec else nodes_via a back (nodes s))
    (set_entities (over_entities (entities spec) (entities_via a back (entities s)))
    (set_physical_groups (unless_empty (physical_groups spec) (physical_groups s))
    (set_format (mesh_format s) spec)))))))))).
  { unfold save_msh.
    eapply PIECE_seq; [apply format_PIECE; [left; exact Hv| |left; exact Hd]|].
    { rewrite Ht'. destruct a; auto. }
    assert (V : v41s = v41s \/ v41s = v22s) by (left; reflexivity).
    eapply PIECE_seq; [here (groups_on c s)|].
    eapply PIECE_seq; [here (entities_on c a s)|].
    eapply PIECE_seq; [here (nodes_on c a s)|].
    eapply PIECE_seq; [here (elements_on c a s)|].
    eapply PIECE_seq; [here (node_data_on c v41s a s)|].
    eapply PIECE_seq; [here (element_data_on c v41s a s)|].
    eapply PIECE_seq; [here (element_node_data_on c v41s a s)|].
    here (splines_on c v41s a s). }
  destruct P as (b & E & L). exists b. split; [exact E|].
  match type of L with LOADS _ _ _ ?x => set (res := x) in * end.
  assert (R : res = over spec (via41 a back (nanospline c) s)).
  { unfold res, ns_over, via41, over. cbn [mesh_format nodes elements entities physical_groups node_data element_data
      element_node_data ns_version curves patches]. unfold ns_plain in PB.
    destruct (nanospline c) eqn:N; [reflexivity|]. rewrite <- (PB eq_refl). reflexivity. }
  rewrite R in L. exact L.
Qed.
End Printed.

(** ** Any number of saved files *)

Lemma one_on : forall c s b t, (exists a, consistent41 c a s) -> save_msh c s = (b, Ok tt) -> load_msh c b = Ok t ->
  version (mesh_format t) = v41s /\ ns_plain c t /\ forall spec, ns_plain c spec -> LOADS c b spec (over spec t).
Proof.
  intros c s b t [a H] E L. destruct (roundtrip41 c a s H) as (b' & E' & L').
  rewrite E in E'. injection E' as <-. assert (X : forall x y : MshSpec, Ok x = Ok y -> x = y) by (intros x y [=]; assumption).
  rewrite L in L'. apply X in L'. subst t. clear X.
  split; [destruct H as [Hv]; exact Hv|]. split.
  - intro N. unfold via41. cbn [ns_version]. rewrite N. reflexivity.
  - intros spec PB. destruct (piece_on c a s spec H PB) as (b' & E' & L'). rewrite E in E'. injection E' as <-. exact L'.
Qed.

Lemma over_plain : forall c s t, ns_plain c t -> ns_plain c (over s t).
Proof. intros c s t H. exact H. Qed.

Lemma saved_on : forall c ss bs ts spec, Forall (fun s => exists a, consistent41 c a s) ss ->
  Forall2 (fun s b => save_msh c s = (b, Ok tt)) ss bs -> Forall2 (fun b t => load_msh c b = Ok t) bs ts ->
  ns_plain c spec -> LOADS c (List.concat bs) spec (fold_left over ts spec).
Proof.
  intros c ss bs ts spec F S. revert ts spec. induction S as [|s b ss bs S1 S IH]; intros ts spec L PB.
  - inversion L; subst. apply LOADS_nil.
  - inversion L as [|? t ? ts' L1 L2]; subst.
    destruct (one_on c s b t (Forall_inv F) S1 L1) as (_ & P & O).
    cbn [List.concat fold_left]. eapply LOADS_app; [apply O; exact PB|].
    apply IH; [exact (Forall_inv_tail F)|exact L2|exact P].
Qed.

Lemma over_version : forall ts t spec, version (mesh_format (fold_left over (ts ++ [t]) spec)) = version (mesh_format t).
Proof. intros. rewrite fold_left_app. reflexivity. Qed.

Lemma saved_joined : forall c ss bs ts, ss <> [] -> Forall (fun s => exists a, consistent41 c a s) ss ->
  Forall2 (fun s b => save_msh c s = (b, Ok tt)) ss bs -> Forall2 (fun b t => load_msh c b = Ok t) bs ts ->
  load_msh c (List.concat bs) = Ok (fold_left over ts spec_default).
Proof.
  intros c ss bs ts N F S L.
  rewrite (LOADS_file c _ _ (saved_on c ss bs ts spec_default F S L (fun _ => eq_refl))).
  unfold post_process.
  assert (V : version (mesh_format (fold_left over ts spec_default)) = v41s).
  { assert (A : Forall (fun t => version (mesh_format t) = v41s) ts).
    { clear N. revert ts L. induction S as [|s b ss bs S1 S IH]; intros ts L; inversion L; subst; constructor.
      - eapply (one_on c s b); [exact (Forall_inv F)|exact S1|eassumption].
      - apply IH; [exact (Forall_inv_tail F)|assumption]. }
    destruct (exists_last (l := ts)) as (ts' & t & ->).
    { intro Z. subst. inversion L; subst. inversion S; subst. apply N. reflexivity. }
    rewrite over_version. apply Forall_app in A. exact (Forall_inv (proj2 A)). }
  rewrite V. reflexivity.
Qed.

(** ** Any number of files in any layout *)

Lemma file41_on : forall c ascii ps b spec, file41 ascii ps b -> Forall (sec_ok c ascii) ps ->
  LOADSw c (fun _ => True) (unknown_of (map sec_name ps)) b spec (fold_left after ps (set_format (format_of "4.1" ascii) spec)).
Proof.
  intros c ascii ps b spec (l & h & r & l' & HL & HH & HR & HL' & ->) OK.
  rewrite <- (app_nil_r (unknown_of (map sec_name ps))).
  apply (LOADSw_app c _ [] _ l (h ++ r ++ l') spec spec).
  { eapply LOADSw_imp; [|apply loose_LOADS; exact HL]. intros; exact I. }
  eapply (LOADSw_app c _ [] (unknown_of (map sec_name ps) ++ []) h (r ++ l')).
  { eapply LOADSw_imp; [|apply (header_LOADS_any c "4.1" ascii); [left; reflexivity|exact HH]]. intros; exact I. }
  eapply LOADSw_app.
  { eapply LOADSw_imp; [|apply secs_LOADS with (ascii := ascii); [exact HR|exact OK|split; destruct ascii; reflexivity]].
    intros; exact I. }
  eapply LOADSw_imp; [|apply loose_LOADS; exact HL']. intros; exact I.
Qed.

Definition put_on (spec : MshSpec) (w : written) : MshSpec :=
  fold_left after (w_secs w) (set_format (format_of "4.1" (w_ascii w)) spec).

Lemma files_on : forall c ws spec, Forall (fun w => file41 (w_ascii w) (w_secs w) (w_bytes w) /\ Forall (sec_ok c (w_ascii w)) (w_secs w)) ws ->
  exists l, LOADSw c (fun _ => True) l (flat_map w_bytes ws) spec (fold_left put_on ws spec).
Proof.
  intros c ws. induction ws as [|w ws IH]; intros spec F.
  - exists []. apply LOADSw_nil. exact I.
  - destruct (Forall_inv F) as [W OK]. destruct (IH (put_on spec w) (Forall_inv_tail F)) as [l L].
    eexists. cbn [flat_map fold_left]. eapply LOADSw_app; [apply file41_on; eassumption|exact L].
Qed.

Lemma after_format : forall ps f s, fold_left after ps (set_format f s) = set_format f (fold_left after ps s).
Proof.
  induction ps as [|p ps IH]; intros f s; [reflexivity|]. cbn [fold_left].
  replace (after (set_format f s) p) with (set_format f (after s p)) by (destruct s, p; reflexivity). apply IH.
Qed.
Lemma set_format_twice : forall f g s, set_format f (set_format g s) = set_format f s.
Proof. intros f g []. reflexivity. Qed.

Lemma put_all : forall ws w spec, fold_left put_on (ws ++ [w]) spec =
  set_format (format_of "4.1" (w_ascii w)) (fold_left after (flat_map w_secs (ws ++ [w])) spec).
Proof.
  induction ws as [|v ws IH]; intros w spec.
  - cbn [app fold_left flat_map]. rewrite app_nil_r. unfold put_on. apply after_format.
  - cbn [app fold_left flat_map]. rewrite IH. unfold put_on at 1. rewrite fold_left_app.
    rewrite !after_format. rewrite set_format_twice. reflexivity.
Qed.

Lemma files_joined : forall c ws w,
  Forall (fun w => file41 (w_ascii w) (w_secs w) (w_bytes w) /\ Forall (sec_ok c (w_ascii w)) (w_secs w)) (ws ++ [w]) ->
  load_msh c (flat_map w_bytes (ws ++ [w])) = Ok (content41 (w_ascii w) (flat_map w_secs (ws ++ [w]))).
Proof.
  intros c ws w F. destruct (files_on c (ws ++ [w]) spec_default F) as [l L].
  rewrite (LOADSw_file c _ _ _ _ L). rewrite put_all. rewrite <- after_format, content_fold. reflexivity.
Qed.

(** ** Two saved files *)

Lemma over_first : forall a back ext s, over spec_default (via41 a back ext s) = via41 a back ext s.
Proof.
  intros a back ext s. unfold over, via41. cbn [mesh_format nodes elements entities physical_groups node_data element_data
    element_node_data ns_version curves patches spec_default app].
  assert (U : forall A (l : list A), unless_empty [] l = l) by (intros A []; reflexivity).
  rewrite !U. clear U.
  rewrite nodes_via_count, elements_via_count.
  f_equal.
  - unfold nodes_via. destruct (n_num_nodes (nodes s) =? 0); reflexivity.
  - unfold elements_via. destruct (e_num_elements (elements s) =? 0); reflexivity.
  - destruct (entities_via a back (entities s)) as [[|? ?] [|? ?] [|? ?] [|? ?]]; reflexivity.
Qed.

Lemma two_joined : forall c s1 s2 b1 b2 t1 t2,
  (exists a, consistent41 c a s1) -> (exists a, consistent41 c a s2) ->
  save_msh c s1 = (b1, Ok tt) -> save_msh c s2 = (b2, Ok tt) ->
  load_msh c b1 = Ok t1 -> load_msh c b2 = Ok t2 -> load_msh c (b1 ++ b2) = Ok (over t1 t2).
Proof.
  intros c s1 s2 b1 b2 t1 t2 C1 C2 S1 S2 L1 L2.
  pose proof (saved_joined c [s1; s2] [b1; b2] [t1; t2] ltac:(discriminate)
    (Forall_cons _ C1 (Forall_cons _ C2 (Forall_nil _)))
    (Forall2_cons _ _ S1 (Forall2_cons _ _ S2 (Forall2_nil _)))
    (Forall2_cons _ _ L1 (Forall2_cons _ _ L2 (Forall2_nil _)))) as J.
  cbn [List.concat fold_left] in J. rewrite app_nil_r in J. rewrite J. do 2 f_equal.
  destruct C1 as [a C1]. destruct (roundtrip41 c a s1 C1) as (b & E & L).
  rewrite S1 in E. injection E as <-. rewrite L1 in L.
  assert (X : forall x y : MshSpec, Ok x = Ok y -> x = y) by (intros x y [=]; assumption).
  apply X in L. rewrite L. apply over_first.
Qed.

Lemma views_joined : forall c s1 s2 b1 b2 t1 t2,
  (exists a, consistent41 c a s1) -> (exists a, consistent41 c a s2) ->
  save_msh c s1 = (b1, Ok tt) -> save_msh c s2 = (b2, Ok tt) -> load_msh c b1 = Ok t1 -> load_msh c b2 = Ok t2 ->
  n_num_nodes (nodes s2) = 0 -> e_num_elements (elements s2) = 0 -> entities s2 = ents_default ->
  physical_groups s2 = [] -> curves s2 = [] -> patches s2 = [] ->
  exists t, load_msh c (b1 ++ b2) = Ok t /\
    nodes t = nodes t1 /\ elements t = elements t1 /\ entities t = entities t1 /\ physical_groups t = physical_groups t1 /\
    curves t = curves t1 /\ patches t = patches t1 /\ node_data t = node_data t1 ++ node_data t2 /\
    element_data t = element_data t1 ++ element_data t2 /\
    element_node_data t = element_node_data t1 ++ element_node_data t2.
Proof.
  intros c s1 s2 b1 b2 t1 t2 C1 C2 S1 S2 L1 L2 Z1 Z2 Z3 Z4 Z5 Z6.
  exists (over t1 t2). split; [apply (two_joined c s1 s2); assumption|].
  destruct C2 as [a C2]. destruct (roundtrip41 c a s2 C2) as (b & E & L).
  rewrite S2 in E. injection E as <-. rewrite L2 in L.
  assert (X : forall x y : MshSpec, Ok x = Ok y -> x = y) by (intros x y [=]; assumption).
  apply X in L. clear X. rewrite L. unfold over, via41.
  cbn [mesh_format nodes elements entities physical_groups node_data element_data element_node_data ns_version curves patches].
  rewrite nodes_via_count, elements_via_count, Z1, Z2, Z3, Z4, Z5, Z6.
  destruct (nanospline c); repeat split.
Qed.
