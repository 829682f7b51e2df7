(** Saving and loading a consistent 4.1 spec. *)

From Verif Require Import Model.Save Spec.Consistent Proofs.BytesP Proofs.RtBase Proofs.ShowP
  Proofs.WriteP Proofs.RtStep Proofs.Rt41A Proofs.Rt41B Proofs.Compose.

Ltac Zify.zify_post_hook ::= idtac.

Lemma token_str : forall b, forallb (fun x => negb (is_ws x)) b = true -> b <> [] -> token b.
Proof.
  intros b H N. split; [exact N|]. rewrite forallb_forall in H. apply Forall_forall.
  intros x Hx. specialize (H x Hx). destruct (is_ws x); [discriminate|reflexivity].
Qed.

Ltac tok := apply token_str; [vm_compute; reflexivity|discriminate].

Section Printed.
Context {print : printer} {back : rounder} {RBK : reads_back print back}.

Definition ftype (a : bool) : Z := if a then 0 else 1.

(** A spec under construction has the format of the one saved. *)
Definition fmt41 (a : bool) (s : MshSpec) : Prop :=
  version (mesh_format s) = v41s /\ file_type (mesh_format s) = ftype a.

Lemma RT_map_ret : forall A B (m : M A) (g : A -> B) t a, RT m t a -> RT (bind m (fun x => ret (g x))) t (g a).
Proof. intros. eapply RT_map; [eassumption|]. reflexivity. Qed.

Lemma EX_map_ret : forall A B (m : M A) (g : A -> B) t a p, EX m t a p ->
  EX (bind m (fun x => ret (g x))) t (g a) p.
Proof. intros A B m g t a p H rest Hr. unfold bind. rewrite (H rest Hr). reflexivity. Qed.

Lemma end_name : forall name, str "$End" ++ name = str "$End" ++ tl (x24 :: name).
Proof. reflexivity. Qed.

(** ** Physical groups (any version) *)

Lemma groups_SOLE : forall c s spec, groups_ok c (physical_groups s) ->
  physical_groups spec = [] ->
  PIECE1 c (if 0 <? zlen (physical_groups s) then save_physical_groups s else wret)
    spec (set_physical_groups (physical_groups s) spec).
Proof.
  intros c s spec H H0. destruct (0 <? zlen (physical_groups s)) eqn:E.
  - unfold save_physical_groups.
    assert (EQ : forall w1 w2 w3 w4, w1 +++ w2 +++ w3 +++ w4 = w1 +++ (w2 +++ w3) +++ w4).
    { intros [x1 [[]|e1|u1| |]] [x2 [[]|e2|u2| |]] [x3 [[]|e3|u3| |]] [x4 r4]; cbn [wseq fst snd]; rewrite ?app_assoc; reflexivity. }
    rewrite EQ.
    apply (section_SOLE_RT c (str "$PhysicalNames") _ (groups_text (physical_groups s))); [tok|reflexivity| |].
    + unfold groups_text. erewrite wseq_ok; [|apply out_ok|apply wfor_ok; intros; reflexivity].
      rewrite <- app_assoc. reflexivity.
    + apply (load_groups_RT c spec). exact H.
  - assert (physical_groups s = []) as ->.
    { destruct (physical_groups s); [reflexivity|]. unfold zlen in E. cbn [List.length] in E.
      apply Z.ltb_ge in E. lia. }
    replace (set_physical_groups [] spec) with spec; [apply PIECE1_ret|].
    destruct spec; cbn in *; subst; reflexivity.
Qed.
Lemma groups_PIECE : forall c s spec, groups_ok c (physical_groups s) ->
  physical_groups spec = [] ->
  PIECE c (if 0 <? zlen (physical_groups s) then save_physical_groups s else wret)
    spec (set_physical_groups (physical_groups s) spec).
Proof. intros. apply PIECE1_PIECE. eapply groups_SOLE; eassumption. Qed.

(** ** Entities *)

Lemma entities_SOLE : forall c a s spec, fmt41 a s -> fmt41 a spec -> entities_ok c a (entities s) ->
  entities spec = ents_default ->
  PIECE1 c (if negb (entities_empty (entities s)) then save_entities s else wret)
    spec (set_entities (entities_via a back (entities s)) spec).
Proof.
  intros c a s spec [Hv Ht] [Hv' Ht'] H H0. destruct (negb (entities_empty (entities s))) eqn:E.
  - unfold save_entities. cbv zeta. rewrite Hv, Ht. cbn [bytes_eqb].
    change (bytes_eqb v41s v22s) with false. change (bytes_eqb v41s v41s) with true. cbv iota.
    destruct a; cbn [ftype Z.eqb].
    + apply (section_SOLE_RT c (str "$Entities") _ (entities_text (entities s))); [tok|reflexivity| |].
      * apply save_entities_a.
      * change (dispatch c (str "$Entities") spec) with (load_entities c spec). unfold load_entities.
        rewrite Hv', Ht'. change (bytes_eqb v41s v41s) with true. cbn [ftype Z.eqb]. cbv iota zeta.
        apply (RT_map_ret _ _ _ (fun en => set_entities en spec)). apply load_entities_a. exact H.
    + apply (section_SOLE c (str "$Entities") _ (entities_bytes (entities s)) _ _ []); [tok|reflexivity| | |constructor].
      * apply save_entities_b.
      * change (dispatch c (str "$Entities") spec) with (load_entities c spec). unfold load_entities.
        rewrite Hv', Ht'. change (bytes_eqb v41s v41s) with true. cbn [ftype Z.eqb]. cbv iota zeta.
        apply (EX_map_ret _ _ _ (fun en => set_entities en spec)). apply load_entities_b. exact H.
  - apply negb_false_iff in E. unfold entities_empty in E. rewrite !andb_true_iff in E.
    destruct E as [[[E1 E2] E3] E4]. apply Z.eqb_eq in E1, E2, E3, E4.
    assert (Z0 : forall A (l : list A), zlen l = 0 -> l = []).
    { intros A [|x l] Q; [reflexivity|]. unfold zlen in Q. cbn [List.length] in Q. lia. }
    apply Z0 in E1, E2, E3, E4. unfold entities_via. rewrite E1, E2, E3, E4. cbn [map].
    replace (set_entities _ spec) with spec; [apply PIECE1_ret|].
    destruct spec; cbn in *; subst; reflexivity.
Qed.
Lemma entities_PIECE : forall c a s spec, fmt41 a s -> fmt41 a spec -> entities_ok c a (entities s) ->
  entities spec = ents_default ->
  PIECE c (if negb (entities_empty (entities s)) then save_entities s else wret)
    spec (set_entities (entities_via a back (entities s)) spec).
Proof. intros. apply PIECE1_PIECE. eapply entities_SOLE; eassumption. Qed.

(** ** Nodes *)

Lemma nodes_SOLE : forall c a s spec, fmt41 a s -> fmt41 a spec ->
  size_ok (n_num_nodes (nodes s)) -> (n_num_nodes (nodes s) <> 0 -> nodes_ok c a (nodes s)) ->
  nodes spec = n_default ->
  PIECE1 c (if 0 <? n_num_nodes (nodes s) then save_nodes s else wret)
    spec (set_nodes (nodes_via a back (nodes s)) spec).
Proof.
  intros c a s spec [Hv Ht] [Hv' Ht'] Hn H H0. unfold nodes_via.
  destruct (0 <? n_num_nodes (nodes s)) eqn:E.
  - apply Z.ltb_lt in E. replace (n_num_nodes (nodes s) =? 0) with false by (symmetry; apply Z.eqb_neq; lia).
    specialize (H ltac:(lia)).
    unfold save_nodes. cbv zeta. rewrite Hv, Ht. change (bytes_eqb v41s v41s) with true. cbv iota.
    destruct a; cbn [ftype Z.eqb].
    + apply (section_SOLE_RT c (str "$Nodes") _ (nodes_text (nodes s))); [tok|reflexivity| |].
      * eapply save_nodes_a; exact H.
      * change (dispatch c (str "$Nodes") spec) with (load_nodes c spec). unfold load_nodes. cbv zeta.
        rewrite Hv', Ht'. change (bytes_eqb v41s v41s) with true. cbn [ftype Z.eqb]. cbv iota.
        apply (RT_map_ret _ _ _ (fun en => set_nodes en spec)). apply load_nodes_a; assumption.
    + apply (section_SOLE c (str "$Nodes") _ (nodes_bytes (nodes s)) _ _ []); [tok|reflexivity| | |constructor].
      * eapply save_nodes_b; exact H.
      * change (dispatch c (str "$Nodes") spec) with (load_nodes c spec). unfold load_nodes. cbv zeta.
        rewrite Hv', Ht'. change (bytes_eqb v41s v41s) with true. cbn [ftype Z.eqb]. cbv iota.
        apply (EX_map_ret _ _ _ (fun en => set_nodes en spec)). apply load_nodes_b; assumption.
  - apply Z.ltb_ge in E. destruct Hn as [Hn _].
    replace (n_num_nodes (nodes s) =? 0) with true by (symmetry; apply Z.eqb_eq; lia).
    replace (set_nodes _ spec) with spec; [apply PIECE1_ret|].
    destruct spec; cbn in *; subst; reflexivity.
Qed.
Lemma nodes_PIECE : forall c a s spec, fmt41 a s -> fmt41 a spec ->
  size_ok (n_num_nodes (nodes s)) -> (n_num_nodes (nodes s) <> 0 -> nodes_ok c a (nodes s)) ->
  nodes spec = n_default ->
  PIECE c (if 0 <? n_num_nodes (nodes s) then save_nodes s else wret)
    spec (set_nodes (nodes_via a back (nodes s)) spec).
Proof. intros. apply PIECE1_PIECE. eapply nodes_SOLE; eassumption. Qed.

(** ** Elements *)

Lemma elements_SOLE : forall c a s spec, fmt41 a s -> fmt41 a spec ->
  size_ok (e_num_elements (elements s)) -> (e_num_elements (elements s) <> 0 -> elements_ok c (elements s)) ->
  elements spec = e_default ->
  PIECE1 c (if 0 <? e_num_elements (elements s) then save_elements s else wret)
    spec (set_elements (elements_via (elements s)) spec).
Proof.
  intros c a s spec [Hv Ht] [Hv' Ht'] Hn H H0. unfold elements_via.
  destruct (0 <? e_num_elements (elements s)) eqn:E.
  - apply Z.ltb_lt in E. replace (e_num_elements (elements s) =? 0) with false by (symmetry; apply Z.eqb_neq; lia).
    specialize (H ltac:(lia)).
    unfold save_elements. cbv zeta. rewrite Hv, Ht. change (bytes_eqb v41s v41s) with true. cbv iota.
    destruct a; cbn [ftype Z.eqb].
    + apply (section_SOLE_RT c (str "$Elements") _ (elements_text (elements s))); [tok|reflexivity| |].
      * eapply save_elements_a; exact H.
      * change (dispatch c (str "$Elements") spec) with (load_elements c spec). unfold load_elements. cbv zeta.
        rewrite Hv', Ht'. change (bytes_eqb v41s v41s) with true. cbn [ftype Z.eqb]. cbv iota.
        apply (RT_map_ret _ _ _ (fun en => set_elements en spec)). apply load_elements_a; assumption.
    + apply (section_SOLE c (str "$Elements") _ (elements_bytes (elements s)) _ _ []); [tok|reflexivity| | |constructor].
      * eapply save_elements_b; exact H.
      * change (dispatch c (str "$Elements") spec) with (load_elements c spec). unfold load_elements. cbv zeta.
        rewrite Hv', Ht'. change (bytes_eqb v41s v41s) with true. cbn [ftype Z.eqb]. cbv iota.
        apply (EX_map_ret _ _ _ (fun en => set_elements en spec)). apply load_elements_b; assumption.
  - apply Z.ltb_ge in E. destruct Hn as [Hn _].
    replace (e_num_elements (elements s) =? 0) with true by (symmetry; apply Z.eqb_eq; lia).
    replace (set_elements _ spec) with spec; [apply PIECE1_ret|].
    destruct spec; cbn in *; subst; reflexivity.
Qed.
Lemma elements_PIECE : forall c a s spec, fmt41 a s -> fmt41 a spec ->
  size_ok (e_num_elements (elements s)) -> (e_num_elements (elements s) <> 0 -> elements_ok c (elements s)) ->
  elements spec = e_default ->
  PIECE c (if 0 <? e_num_elements (elements s) then save_elements s else wret)
    spec (set_elements (elements_via (elements s)) spec).
Proof. intros. apply PIECE1_PIECE. eapply elements_SOLE; eassumption. Qed.

(** ** Data sections, of either version *)

Definition fmt (v : bytes) (a : bool) (s : MshSpec) : Prop :=
  version (mesh_format s) = v /\ file_type (mesh_format s) = ftype a.

(** One kind of data section: its name, flag, field and update. *)
Section DataKind.
Variables (c : cfg) (v : bytes) (a : bool) (name : bytes) (pn : bool).
Variables (get : MshSpec -> list Data) (set : list Data -> MshSpec -> MshSpec).
Hypothesis Hv : v = v41s \/ v = v22s.
Hypothesis name_token : token (x24 :: name).
Hypothesis name_known : known_marker (x24 :: name) = true.
Hypothesis disp : forall spec, dispatch c (x24 :: name) spec =
  (d <- load_data c (version (mesh_format spec)) (0 <? file_type (mesh_format spec)) pn ;;
   ret (set (get spec ++ [d]) spec)).
Hypothesis get_set : forall l spec, get (set l spec) = l.
Hypothesis set_set : forall l l' spec, set l (set l' spec) = set l spec.
Hypothesis set_get : forall spec, set (get spec) spec = spec.
Hypothesis fmt_set : forall l spec, mesh_format (set l spec) = mesh_format spec.

Lemma data_SOLE1 : forall s spec d, fmt v a s -> fmt v a spec -> data_ok c a pn d ->
  PIECE1 c (out (str "$" ++ name ++ endl) +++
           save_data (version (mesh_format s)) (0 <? file_type (mesh_format s)) pn d +++
           out (str "$End" ++ name ++ endl))
    spec (set (get spec ++ [data_via a back d]) spec).
Proof.
  intros s spec d [Fv Ft] [Fv' Ft'] H. rewrite Fv, Ft.
  change (str "$" ++ name ++ endl) with ((x24 :: name) ++ endl).
  change (str "$End" ++ name ++ endl) with (str "$End" ++ tl (x24 :: name) ++ endl).
  destruct a; cbn [ftype Z.ltb Z.compare].
  - eapply section_SOLE_RT; [exact name_token|exact name_known|apply save_data_a|].
    rewrite disp, Fv', Ft'. cbn [ftype Z.ltb Z.compare].
    apply (RT_map_ret _ _ _ (fun d => set (get spec ++ [d]) spec)). apply load_data_a. exact H.
  - eapply (section_SOLE _ _ _ _ _ _ []); [exact name_token|exact name_known|apply save_data_b; exact Hv| |constructor].
    rewrite disp, Fv', Ft'. cbn [ftype Z.ltb Z.compare].
    apply (EX_map_ret _ _ _ (fun d => set (get spec ++ [d]) spec)). apply load_data_b; auto. apply ws_endl.
Qed.
Lemma data_PIECE1 : forall s spec d, fmt v a s -> fmt v a spec -> data_ok c a pn d ->
  PIECE c (out (str "$" ++ name ++ endl) +++
           save_data (version (mesh_format s)) (0 <? file_type (mesh_format s)) pn d +++
           out (str "$End" ++ name ++ endl))
    spec (set (get spec ++ [data_via a back d]) spec).
Proof. intros. apply PIECE1_PIECE. eapply data_SOLE1; eassumption. Qed.

Lemma data_PIECE : forall s ds spec, fmt v a s -> fmt v a spec -> Forall (data_ok c a pn) ds ->
  PIECE c (save_data_sections name pn s ds) spec (set (get spec ++ map (data_via a back) ds) spec).
Proof.
  intros s ds. unfold save_data_sections. induction ds as [|d ds IH]; intros spec F F' H.
  - cbn [wfor map]. rewrite app_nil_r, set_get. apply PIECE_ret.
  - inversion H as [|? ? Hd Hds]; subst. cbn [wfor map]. eapply PIECE_seq.
    + apply data_PIECE1; eassumption.
    + specialize (IH (set (get spec ++ [data_via a back d]) spec) F).
      rewrite get_set, set_set in IH. rewrite <- app_assoc in IH. apply IH; [|exact Hds].
      destruct F'. split; rewrite fmt_set; assumption.
Qed.

Lemma data_PIECE_if : forall s ds spec, fmt v a s -> fmt v a spec -> Forall (data_ok c a pn) ds ->
  get spec = [] ->
  PIECE c (if 0 <? zlen ds then save_data_sections name pn s ds else wret)
    spec (set (map (data_via a back) ds) spec).
Proof.
  intros s ds spec F F' H H0. destruct (0 <? zlen ds) eqn:E.
  - pose proof (data_PIECE s ds spec F F' H) as P. rewrite H0 in P. exact P.
  - apply Z.ltb_ge in E. destruct ds as [|d ds]; [|unfold zlen in E; cbn [List.length] in E; lia].
    cbn [map]. rewrite <- H0, set_get. apply PIECE_ret.
Qed.

(** After each of the sections, one more set has been read. *)
Lemma data_PIECE_in : forall s ds spec, fmt v a s -> fmt v a spec -> Forall (data_ok c a pn) ds ->
  PIECE_in c (fun x => exists k, x = set (get spec ++ map (data_via a back) (firstn k ds)) spec)
    (save_data_sections name pn s ds) spec (set (get spec ++ map (data_via a back) ds) spec).
Proof.
  intros s ds. unfold save_data_sections. induction ds as [|d ds IH]; intros spec F F' H.
  - cbn [wfor map]. rewrite app_nil_r, set_get.
    eapply PIECE_in_imp; [|apply PIECE1_ret]. intros x [-> | ->]; exists O; cbn [firstn map]; rewrite app_nil_r, set_get; reflexivity.
  - inversion H as [|? ? Hd Hds]; subst. cbn [wfor map]. eapply PIECE_in_seq.
    + eapply PIECE_in_imp; [|apply data_SOLE1; eassumption].
      intros x [-> | ->]; [exists O; cbn [firstn map]; rewrite app_nil_r, set_get; reflexivity|exists 1%nat; reflexivity].
    + specialize (IH (set (get spec ++ [data_via a back d]) spec) F).
      rewrite get_set, set_set in IH. rewrite <- app_assoc in IH.
      eapply PIECE_in_imp; [|apply IH; [|exact Hds]].
      * intros x [k ->]. exists (S k). rewrite set_set, <- app_assoc. reflexivity.
      * destruct F'. split; rewrite fmt_set; assumption.
Qed.

Lemma data_PIECE_in_if : forall s ds spec, fmt v a s -> fmt v a spec -> Forall (data_ok c a pn) ds ->
  get spec = [] ->
  PIECE_in c (fun x => exists k, x = set (map (data_via a back) (firstn k ds)) spec)
    (if 0 <? zlen ds then save_data_sections name pn s ds else wret)
    spec (set (map (data_via a back) ds) spec).
Proof.
  intros s ds spec F F' H H0. destruct (0 <? zlen ds) eqn:E.
  - pose proof (data_PIECE_in s ds spec F F' H) as P. rewrite H0 in P. exact P.
  - apply Z.ltb_ge in E. destruct ds as [|d ds]; [|unfold zlen in E; cbn [List.length] in E; lia].
    cbn [map]. rewrite <- H0, set_get. eapply PIECE_in_imp; [|apply PIECE1_ret].
    intros x [-> | ->]; exists O; cbn [firstn map]; rewrite <- H0, set_get; reflexivity.
Qed.
End DataKind.

Section DataKinds.
Variables (c : cfg) (v : bytes) (a : bool) (s spec : MshSpec).
Hypothesis Hv : v = v41s \/ v = v22s.
Hypothesis F : fmt v a s.
Hypothesis F' : fmt v a spec.

Lemma node_data_PIECE : Forall (data_ok c a false) (node_data s) -> node_data spec = [] ->
  PIECE c (if 0 <? zlen (node_data s) then save_node_data s else wret)
    spec (set_node_data (map (data_via a back) (node_data s)) spec).
Proof.
  intros H H0. unfold save_node_data.
  apply (data_PIECE_if c v a (str "NodeData") false node_data set_node_data); auto; try reflexivity.
  - tok.
  - intros []; reflexivity.
Qed.

Lemma element_data_PIECE : Forall (data_ok c a false) (element_data s) -> element_data spec = [] ->
  PIECE c (if 0 <? zlen (element_data s) then save_element_data s else wret)
    spec (set_element_data (map (data_via a back) (element_data s)) spec).
Proof.
  intros H H0. unfold save_element_data.
  apply (data_PIECE_if c v a (str "ElementData") false element_data set_element_data); auto; try reflexivity.
  - tok.
  - intros []; reflexivity.
Qed.

Lemma element_node_data_PIECE : Forall (data_ok c a true) (element_node_data s) -> element_node_data spec = [] ->
  PIECE c (if 0 <? zlen (element_node_data s) then save_element_node_data s else wret)
    spec (set_element_node_data (map (data_via a back) (element_node_data s)) spec).
Proof.
  intros H H0. unfold save_element_node_data.
  apply (data_PIECE_if c v a (str "ElementNodeData") true element_node_data set_element_node_data); auto; try reflexivity.
  - tok.
  - intros []; reflexivity.
Qed.

Lemma node_data_PIECE_in : Forall (data_ok c a false) (node_data s) -> node_data spec = [] ->
  PIECE_in c (fun x => exists k, x = set_node_data (map (data_via a back) (firstn k (node_data s))) spec)
    (if 0 <? zlen (node_data s) then save_node_data s else wret)
    spec (set_node_data (map (data_via a back) (node_data s)) spec).
Proof.
  intros H H0. unfold save_node_data.
  apply (data_PIECE_in_if c v a (str "NodeData") false node_data set_node_data); auto; try reflexivity.
  - tok.
  - intros []; reflexivity.
Qed.

Lemma element_data_PIECE_in : Forall (data_ok c a false) (element_data s) -> element_data spec = [] ->
  PIECE_in c (fun x => exists k, x = set_element_data (map (data_via a back) (firstn k (element_data s))) spec)
    (if 0 <? zlen (element_data s) then save_element_data s else wret)
    spec (set_element_data (map (data_via a back) (element_data s)) spec).
Proof.
  intros H H0. unfold save_element_data.
  apply (data_PIECE_in_if c v a (str "ElementData") false element_data set_element_data); auto; try reflexivity.
  - tok.
  - intros []; reflexivity.
Qed.

Lemma element_node_data_PIECE_in : Forall (data_ok c a true) (element_node_data s) -> element_node_data spec = [] ->
  PIECE_in c (fun x => exists k, x = set_element_node_data (map (data_via a back) (firstn k (element_node_data s))) spec)
    (if 0 <? zlen (element_node_data s) then save_element_node_data s else wret)
    spec (set_element_node_data (map (data_via a back) (element_node_data s)) spec).
Proof.
  intros H H0. unfold save_element_node_data.
  apply (data_PIECE_in_if c v a (str "ElementNodeData") true element_node_data set_element_node_data); auto; try reflexivity.
  - tok.
  - intros []; reflexivity.
Qed.
End DataKinds.

(** ** Nanospline sections *)

Lemma ns_format_SOLE : forall c s spec, word (ns_version s) ->
  PIECE1 c (save_nanospline_format s) spec (set_ns_version (ns_version s) spec).
Proof.
  intros c s spec H. unfold save_nanospline_format.
  apply (section_SOLE_RT c (str "$NanoSplineFormat") _ (ns_version s ++ endl)); [tok|reflexivity|reflexivity|].
  change (dispatch c (str "$NanoSplineFormat") spec) with (load_nanospline_format spec).
  apply (RT_map_ret _ _ _ (fun v => set_ns_version v spec)). apply rd_token_RT; [exact H|apply ws_endl|discriminate].
Qed.
Lemma ns_format_PIECE : forall c s spec, word (ns_version s) ->
  PIECE c (save_nanospline_format s) spec (set_ns_version (ns_version s) spec).
Proof. intros. apply PIECE1_PIECE. eapply ns_format_SOLE; eassumption. Qed.

Lemma wassoc4 : forall w1 w2 w3 w4, w1 +++ w2 +++ w3 +++ w4 = w1 +++ (w2 +++ w3) +++ w4.
Proof.
  intros [x1 [[]|e1|u1| |]] [x2 [[]|e2|u2| |]] [x3 [[]|e3|u3| |]] [x4 r4];
    cbn [wseq fst snd]; rewrite ?app_assoc; reflexivity.
Qed.

Lemma ftype_eqb : forall a, (ftype a =? 0) = a.
Proof. intros [|]; reflexivity. Qed.

Lemma curves_SOLE : forall c v a s spec, nanospline c = true -> fmt v a s -> fmt v a spec ->
  Forall (curve_ok c a) (curves s) -> fits c sz_Curve (zlen (curves s)) -> curves spec = [] ->
  PIECE1 c (if 0 <? zlen (curves s) then save_curves c s else wret)
    spec (set_curves (map (curve_via a back) (curves s)) spec).
Proof.
  intros c v a s spec Hns [Fv Ft] [Fv' Ft'] H Hm H0. destruct (0 <? zlen (curves s)) eqn:E.
  - unfold save_curves. rewrite Ft, ftype_eqb, wassoc4. rewrite Forall_forall in H.
    eapply (section_SOLE_RT c (str "$Curves")); [tok|reflexivity| |].
    + apply wseq_ok; [apply out_ok|]. apply wfor_ok. intros k Hk. apply save_curve_ab. auto.
    + change (dispatch c (str "$Curves") spec) with (load_curves c spec). unfold load_curves.
      rewrite Hns, Ft', ftype_eqb. rewrite <- app_assoc.
      eapply RT_size_opt; [eapply fits_size_ok; [|exact Hm]; reflexivity|apply ws_endl|discriminate|].
      eapply RT_bind0; [intros; reflexivity|].
      destruct (fits_resize Curve c sz_Curve cv_default (zlen (curves s)) (curves spec)) as (v1 & E1 & L1);
        [reflexivity|apply zlen_nonneg|exact Hm|].
      eapply RT_bind0; [intros; apply lift_ok; exact E1|].
      eapply RT_last; [|apply RT_ret].
      apply mapM_RT'; [apply zlen_length; exact L1|]. intros; apply load_curve_ab; auto.
  - apply Z.ltb_ge in E. destruct (curves s) as [|d ds]; [|unfold zlen in E; cbn [List.length] in E; lia].
    replace (set_curves _ spec) with spec; [apply PIECE1_ret|].
    destruct spec; cbn in *; subst; reflexivity.
Qed.
Lemma curves_PIECE : forall c v a s spec, nanospline c = true -> fmt v a s -> fmt v a spec ->
  Forall (curve_ok c a) (curves s) -> fits c sz_Curve (zlen (curves s)) -> curves spec = [] ->
  PIECE c (if 0 <? zlen (curves s) then save_curves c s else wret)
    spec (set_curves (map (curve_via a back) (curves s)) spec).
Proof. intros. apply PIECE1_PIECE. eapply curves_SOLE; eassumption. Qed.

Lemma patches_SOLE : forall c v a s spec, nanospline c = true -> fmt v a s -> fmt v a spec ->
  Forall (patch_ok c a) (patches s) -> fits c sz_Patch (zlen (patches s)) -> patches spec = [] ->
  PIECE1 c (if 0 <? zlen (patches s) then save_patches c s else wret)
    spec (set_patches (map (patch_via a back) (patches s)) spec).
Proof.
  intros c v a s spec Hns [Fv Ft] [Fv' Ft'] H Hm H0. destruct (0 <? zlen (patches s)) eqn:E.
  - unfold save_patches. rewrite Ft, ftype_eqb, wassoc4. rewrite Forall_forall in H.
    eapply (section_SOLE_RT c (str "$Patches")); [tok|reflexivity| |].
    + apply wseq_ok; [apply out_ok|]. apply wfor_ok. intros k Hk. apply save_patch_ab. auto.
    + change (dispatch c (str "$Patches") spec) with (load_patches c spec). unfold load_patches.
      rewrite Hns, Ft', ftype_eqb. rewrite <- app_assoc.
      eapply RT_size_opt; [eapply fits_size_ok; [|exact Hm]; reflexivity|apply ws_endl|discriminate|].
      eapply RT_bind0; [intros; reflexivity|].
      destruct (fits_resize Patch c sz_Patch pt_default (zlen (patches s)) (patches spec)) as (v1 & E1 & L1);
        [reflexivity|apply zlen_nonneg|exact Hm|].
      eapply RT_bind0; [intros; apply lift_ok; exact E1|].
      eapply RT_last; [|apply RT_ret].
      apply mapM_RT'; [apply zlen_length; exact L1|]. intros; apply load_patch_ab; auto.
  - apply Z.ltb_ge in E. destruct (patches s) as [|d ds]; [|unfold zlen in E; cbn [List.length] in E; lia].
    replace (set_patches _ spec) with spec; [apply PIECE1_ret|].
    destruct spec; cbn in *; subst; reflexivity.
Qed.
Lemma patches_PIECE : forall c v a s spec, nanospline c = true -> fmt v a s -> fmt v a spec ->
  Forall (patch_ok c a) (patches s) -> fits c sz_Patch (zlen (patches s)) -> patches spec = [] ->
  PIECE c (if 0 <? zlen (patches s) then save_patches c s else wret)
    spec (set_patches (map (patch_via a back) (patches s)) spec).
Proof. intros. apply PIECE1_PIECE. eapply patches_SOLE; eassumption. Qed.

Definition ns_via (c : cfg) (a : bool) (s spec : MshSpec) : MshSpec :=
  if nanospline c then
    set_patches (map (patch_via a back) (patches s))
      (set_curves (map (curve_via a back) (curves s)) (set_ns_version (ns_version s) spec))
  else spec.

Lemma splines_PIECE : forall c v a s spec, fmt v a s -> fmt v a spec ->
  (nanospline c = true -> splines_ok c a s) -> curves spec = [] -> patches spec = [] ->
  PIECE c
    (if nanospline c then
       save_nanospline_format s +++
       (if 0 <? zlen (curves s) then save_curves c s else wret) +++
       (if 0 <? zlen (patches s) then save_patches c s else wret)
     else wret) spec (ns_via c a s spec).
Proof.
  intros c v a s spec F F' H H1 H2. unfold ns_via. destruct (nanospline c) eqn:N; [|apply PIECE_ret].
  destruct (H eq_refl) as [Hw [Hc Hcm] [Hp Hpm]].
  eapply PIECE_seq; [apply ns_format_PIECE; exact Hw|].
  eapply PIECE_seq.
  - eapply (curves_PIECE c v a); auto.
  - eapply (patches_PIECE c v a); auto.
Qed.

(** ** The whole file *)

Lemma piece41 : forall c a s, consistent41 c a s ->
  PIECE c (save_msh c s) spec_default (via41 a back (nanospline c) s).
Proof.
  intros c a s [Hv Ht Hd [Kg Knn Kn Kne Ke Knd Ked Kend] Hen Hns].
  assert (Ht' : file_type (mesh_format s) = ftype a) by exact Ht.
  assert (F : fmt41 a s) by (split; assumption).
  assert (P : PIECE c (save_msh c s) spec_default
    (ns_via c a s
    (set_element_node_data (map (data_via a back) (element_node_data s))
    (set_element_data (map (data_via a back) (element_data s))
    (set_node_data (map (data_via a back) (node_data s))
    (set_elements (elements_via (elements s))
    (set_nodes (nodes_via a back (nodes s))
    (set_entities (entities_via a back (entities s))
    (set_physical_groups (physical_groups s)
    (set_format (mesh_format s) spec_default)))))))))).
  { unfold save_msh.
    eapply PIECE_seq; [apply format_PIECE; [left; exact Hv| |left; exact Hd]|].
    { rewrite Ht'. destruct a; auto. }
    eapply PIECE_seq; [apply groups_PIECE; [exact Kg|reflexivity]|].
    eapply PIECE_seq; [apply (entities_PIECE c a); auto|].
    eapply PIECE_seq; [apply (nodes_PIECE c a); auto|].
    eapply PIECE_seq; [apply (elements_PIECE c a); auto|].
    eapply PIECE_seq; [apply (node_data_PIECE c v41s a); auto|].
    eapply PIECE_seq; [apply (element_data_PIECE c v41s a); auto|].
    eapply PIECE_seq; [apply (element_node_data_PIECE c v41s a); auto|].
    apply (splines_PIECE c v41s a); auto. }
  destruct P as (b & E & L). exists b. split; [exact E|].
  match type of L with LOADS _ _ _ ?x => set (res := x) in * end.
  assert (R : res = via41 a back (nanospline c) s).
  { unfold res, ns_via, via41. destruct (nanospline c); reflexivity. }
  rewrite R in L. exact L.
Qed.

Theorem roundtrip41 : forall c a s, consistent41 c a s ->
  exists b, save_msh c s = (b, Ok tt) /\ load_msh c b = Ok (via41 a back (nanospline c) s).
Proof.
  intros c a s H. destruct (piece41 c a s H) as (b & E & L). exists b. split; [exact E|].
  rewrite (LOADS_file c b _ L). unfold post_process.
  replace (version (mesh_format (via41 a back (nanospline c) s))) with v41s by (symmetry; apply H).
  reflexivity.
Qed.

End Printed.
