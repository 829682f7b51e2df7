(** What a file loads is written in it. *)

From Verif Require Import Model.LoadMsh Spec.Told Spec.Steps Spec.Files22 Spec.Weight Spec.Prefix Proofs.BytesP Proofs.RtBase Proofs.Mono Proofs.Hoare Proofs.TriP
  Proofs.ExtP Proofs.File22P Proofs.WeightP Proofs.SkipP Proofs.PrefixP Proofs.SuffixP Proofs.ToldP Proofs.ToldSecP.

Ltac Zify.zify_post_hook ::= idtac.

Definition same_told (s s' : MshSpec) : Prop := physical_groups s' = physical_groups s /\
  node_data s' = node_data s /\ element_data s' = element_data s /\ element_node_data s' = element_node_data s.
Definition same_solid (s s' : MshSpec) : Prop := entities s' = entities s /\ nodes s' = nodes s /\ elements s' = elements s.

Lemma told_common_same : forall b s s', same_told s s' -> told_common b s -> told_common b s'.
Proof. intros b s s' (E1 & E2 & E3 & E4) [T1 T2 T3 T4]. split; [rewrite E1|rewrite E2|rewrite E3|rewrite E4]; assumption. Qed.
Lemma told_mesh_same : forall b s s', same_solid s s' -> told_mesh b s -> told_mesh b s'.
Proof. intros b s s' (E1 & E2 & E3) [T1 T2 T3]. split; [rewrite E1|rewrite E2|rewrite E3]; assumption. Qed.

Section Debug.
Variable c : cfg.
Hypothesis D : ndebug c = false.

(** The section [name] starts at [s], in [b]. *)
Definition starts (b name : bytes) (s : istream) : Prop := exists pre, b = pre ++ name ++ rest s.

Lemma starts_says : forall b name s t s' (P : bytes -> bytes -> Prop), starts b name s -> rest s = t ++ rest s' -> P t (rest s') -> says b name P.
Proof. intros b name s t s' P (pre & E) ES HP. exists pre, t, (rest s'). rewrite <- ES. auto. Qed.

Lemma data_put : forall v bin end_ (put : Data -> MshSpec) s spec' s', bind (load_data c v bin end_) (fun d => ret (put d)) s = Ok (spec', s') ->
  exists d, spec' = put d /\ exists t, rest s = t ++ rest s' /\ data_text (negb bin) end_ d t (rest s').
Proof.
  intros v bin end_ put s spec' s' E. unfold bind in E. destruct (load_data c v bin end_ s) as [[d s1]| | | |] eqn:ED; try discriminate.
  injection E as <- <-. exists d. split; [reflexivity|]. exact (proj2 (data_told _ _ _ _ _ _ _ ED (data_ends c D v bin end_ _ _ _ ED))).
Qed.

Lemma dispatch_told_common : forall b name spec s spec' s', dispatch c name spec s = Ok (spec', s') -> starts b name s ->
  told_common b spec -> told_common b spec'.
Proof.
  intros b name spec s spec' s' E SB T.
  assert (SAME : forall m : M MshSpec, m s = Ok (spec', s') -> post m (same_told spec) -> told_common b spec').
  { intros m Em P. eapply told_common_same; [|exact T]. eapply P. exact Em. }
  unfold dispatch in E.
  destruct (bytes_eqb name (str "$MeshFormat")); [eapply SAME; [exact E|unfold load_mesh_format; post_frame ltac:(repeat split)]|].
  destruct (bytes_eqb name (str "$Entities")); [eapply SAME; [exact E|unfold load_entities; post_frame ltac:(repeat split)]|].
  destruct (bytes_eqb name (str "$PhysicalNames")) eqn:EN.
  { apply bytes_eqb_eq in EN. subst name. destruct (groups_told c spec _ _ _ E (groups_ends c D spec _ _ _ E)) as (_ & t & E1 & P1).
    destruct (groups_frame c spec _ _ _ E) as (gs & ->). split; [|exact (told_node_data _ _ T)|exact (told_element_data _ _ T)|exact (told_element_node_data _ _ T)].
    right. eapply starts_says; eassumption. }
  destruct (bytes_eqb name (str "$Nodes")); [eapply SAME; [exact E|unfold load_nodes; post_frame ltac:(repeat split)]|].
  destruct (bytes_eqb name (str "$Elements")); [eapply SAME; [exact E|unfold load_elements; post_frame ltac:(repeat split)]|].
  destruct (bytes_eqb name (str "$NodeData")) eqn:E1.
  { apply bytes_eqb_eq in E1. subst name. unfold load_node_data in E. apply data_put in E. destruct E as (d & -> & t & ET & HT).
    split; [exact (told_groups _ _ T)| |exact (told_element_data _ _ T)|exact (told_element_node_data _ _ T)].
    cbn [node_data set_node_data]. apply Forall_app. split; [exact (told_node_data _ _ T)|]. constructor; [|constructor].
    eexists. eapply starts_says; eassumption. }
  destruct (bytes_eqb name (str "$ElementData")) eqn:E2.
  { apply bytes_eqb_eq in E2. subst name. unfold load_element_data in E. apply data_put in E. destruct E as (d & -> & t & ET & HT).
    split; [exact (told_groups _ _ T)|exact (told_node_data _ _ T)| |exact (told_element_node_data _ _ T)].
    cbn [element_data set_element_data]. apply Forall_app. split; [exact (told_element_data _ _ T)|]. constructor; [|constructor].
    eexists. eapply starts_says; eassumption. }
  destruct (bytes_eqb name (str "$ElementNodeData")) eqn:E3.
  { apply bytes_eqb_eq in E3. subst name. unfold load_element_node_data in E. apply data_put in E. destruct E as (d & -> & t & ET & HT).
    split; [exact (told_groups _ _ T)|exact (told_node_data _ _ T)|exact (told_element_data _ _ T)|].
    cbn [element_node_data set_element_node_data]. apply Forall_app. split; [exact (told_element_node_data _ _ T)|]. constructor; [|constructor].
    eexists. eapply starts_says; eassumption. }
  destruct (bytes_eqb name (str "$NanoSplineFormat")); [eapply SAME; [exact E|unfold load_nanospline_format; post_frame ltac:(repeat split)]|].
  destruct (bytes_eqb name (str "$Curves")); [eapply SAME; [exact E|unfold load_curves; post_frame ltac:(repeat split)]|].
  destruct (bytes_eqb name (str "$Patches")); [eapply SAME; [exact E|unfold load_patches; post_frame ltac:(repeat split)]|].
  eapply SAME; [exact E|apply post_ret; repeat split].
Qed.

Lemma dispatch_told_mesh : forall b name spec s spec' s', (name = str "$Nodes" \/ name = str "$Elements" -> version (mesh_format spec) = str "4.1") ->
  dispatch c name spec s = Ok (spec', s') -> starts b name s -> told_mesh b spec -> told_mesh b spec'.
Proof.
  intros b name spec s spec' s' Hv E SB T.
  assert (SAME : forall m : M MshSpec, m s = Ok (spec', s') -> post m (same_solid spec) -> told_mesh b spec').
  { intros m Em P. eapply told_mesh_same; [|exact T]. eapply P. exact Em. }
  assert (N22 : version (mesh_format spec) = str "4.1" -> version (mesh_format spec) <> str "2.2") by (intros ->; discriminate).
  unfold dispatch in E.
  destruct (bytes_eqb name (str "$MeshFormat")); [eapply SAME; [exact E|unfold load_mesh_format; post_frame ltac:(repeat split)]|].
  destruct (bytes_eqb name (str "$Entities")) eqn:E1.
  { apply bytes_eqb_eq in E1. subst name.
    assert (F : exists e, spec' = set_entities e spec).
    { revert E. unfold load_entities. cbv zeta. match goal with |- ?m s = _ -> _ => assert (P : post m (fun x => exists e, x = set_entities e spec)) end.
      { destruct (bytes_eqb _ v41s); [apply post_bind_any; intro; apply post_ret; eauto|]. destruct (bytes_eqb _ v22s); [apply post_throw|].
        apply post_ret. exists (entities spec). destruct spec. reflexivity. }
      intro E. exact (P _ _ _ E). }
    assert (G : good s' = true \/ entities spec' = entities spec).
    { unfold load_entities in E. cbv zeta in E. destruct (bytes_eqb _ v41s).
      - left. exact (ends_map _ _ _ (fun en => set_entities en spec) (entities41_ends c D (file_type (mesh_format spec) =? 0) (entities spec)) _ _ _ E).
      - right. destruct (bytes_eqb _ v22s); [discriminate|]. injection E as <- _. reflexivity. }
    assert (X : entities spec' = entities spec \/ exists ascii t, rest s = t ++ rest s' /\ numbers ascii (entities_numbers (entities spec')) t (rest s')).
    { destruct G as [G|G]; [|left; exact G]. eapply load_entities_told; eassumption. }
    destruct F as (e & ->). split; [|exact (told_nodes _ _ T)|exact (told_elements _ _ T)].
    destruct X as [->|(ascii & t & X1 & X2)]; [exact (told_entities _ _ T)|]. right. exists ascii. eapply starts_says; eassumption. }
  destruct (bytes_eqb name (str "$PhysicalNames")); [eapply SAME; [exact E|unfold load_physical_groups; post_frame ltac:(repeat split)]|].
  destruct (bytes_eqb name (str "$Nodes")) eqn:E2.
  { apply bytes_eqb_eq in E2. subst name. specialize (N22 (Hv (or_introl eq_refl))).
    assert (F : exists n, spec' = set_nodes n spec).
    { revert E. unfold load_nodes. cbv zeta. match goal with |- ?m s = _ -> _ => assert (P : post m (fun x => exists n, x = set_nodes n spec)) end.
      { apply post_bind_any. intro. apply post_ret. eauto. }
      intro E. exact (P _ _ _ E). }
    destruct (load_nodes_told _ _ _ _ _ E (nodes_ends c D _ N22 _ _ _ E) N22) as (ascii & t & X1 & X2). destruct F as (n & ->).
    split; [exact (told_entities _ _ T)| |exact (told_elements _ _ T)]. right. exists ascii. eapply starts_says; eassumption. }
  destruct (bytes_eqb name (str "$Elements")) eqn:E3.
  { apply bytes_eqb_eq in E3. subst name. specialize (N22 (Hv (or_intror eq_refl))).
    destruct (load_elements_told _ _ _ _ _ E (elements_ends c D _ N22 _ _ _ E) N22) as (ascii & t & X1 & X2).
    assert (F : exists n, spec' = set_elements n spec).
    { revert E. unfold load_elements. cbv zeta. rewrite (proj2 (bytes_eqb_neq (version (mesh_format spec)) v22s) N22).
      match goal with |- ?m s = _ -> _ => assert (P : post m (fun x => exists n, x = set_elements n spec)) end.
      { destruct (bytes_eqb _ v41s); [|apply post_throw]. apply post_bind_any. intro. apply post_ret. eauto. }
      intro E. exact (P _ _ _ E). }
    destruct F as (n & ->).
    split; [exact (told_entities _ _ T)|exact (told_nodes _ _ T)|]. right. exists ascii. eapply starts_says; eassumption. }
  destruct (bytes_eqb name (str "$NodeData")); [eapply SAME; [exact E|unfold load_node_data; post_frame ltac:(repeat split)]|].
  destruct (bytes_eqb name (str "$ElementData")); [eapply SAME; [exact E|unfold load_element_data; post_frame ltac:(repeat split)]|].
  destruct (bytes_eqb name (str "$ElementNodeData")); [eapply SAME; [exact E|unfold load_element_node_data; post_frame ltac:(repeat split)]|].
  destruct (bytes_eqb name (str "$NanoSplineFormat")); [eapply SAME; [exact E|unfold load_nanospline_format; post_frame ltac:(repeat split)]|].
  destruct (bytes_eqb name (str "$Curves")); [eapply SAME; [exact E|unfold load_curves; post_frame ltac:(repeat split)]|].
  destruct (bytes_eqb name (str "$Patches")); [eapply SAME; [exact E|unfold load_patches; post_frame ltac:(repeat split)]|].
  eapply SAME; [exact E|apply post_ret; repeat split].
Qed.

(** ** Whole files *)

Lemma step_later : forall p p', step c p p' -> later (stream_of p) (stream_of p').
Proof.
  intros p p' H. destruct H as [spec s buf s1 E ET IS|spec s buf s1 spec' s2 E ET IS ED
    |flag buf spec s buf' s' E N ET|flag buf spec s C]; cbn [stream_of].
  - pose proof (goes_token [] s) as A. rewrite ET in A. exact A.
  - pose proof (goes_token [] s) as A. rewrite ET in A. eapply later_trans; [exact A|]. eapply suf_dispatch. exact ED.
  - pose proof (goes_token buf s) as A. rewrite ET in A. exact A.
  - apply later_refl.
Qed.

(** A section name that has been read is there, and its section follows it. *)
Lemma token_starts : forall b s buf s1, later (opened b) s -> rd_token [] s = (buf, s1) -> is_section buf = true -> starts b buf s1.
Proof.
  intros b s buf s1 (pre & EP) ET IS. cbn [opened rest] in EP. unfold rd_token in ET.
  destruct (sentry_cases s) as [(G & N & ES)|[(G & N & ES)|(G & ES)]]; rewrite ES in ET; [|injection ET as <- _; discriminate|injection ET as <- _; discriminate].
  cbn [with_rest rest] in ET. destruct (take_token (skip_ws (rest s))) as [t r] eqn:E. injection ET as <- <-.
  destruct (at_end_rest r (with_rest (skip_ws (rest s)) s)) as (e & EA). cbn [with_rest] in EA. rewrite EA.
  apply take_token_is in E. destruct E as [E _]. destruct (skip_ws_is (rest s)) as (u & _ & EU). exists (pre ++ u). cbn [rest].
  rewrite EP. rewrite EU at 1. rewrite E. rewrite <- app_assoc. reflexivity.
Qed.

Lemma loop_told : forall b (T : MshSpec -> Prop), T spec_default ->
  (forall name spec s spec' s', meets c b name spec s -> dispatch c name spec s = Ok (spec', s') -> starts b name s -> T spec -> T spec') ->
  forall p, reached c b p -> T (read_at p).
Proof.
  intros b T T0 HD.
  assert (G : forall n p q, steps c n p q -> reached c b p -> later (opened b) (stream_of p) -> T (read_at p) -> T (read_at q)).
  { intros n p q H. induction H as [p|n p q r HS H IH]; intros R L Tp; [exact Tp|].
    apply IH; [exact (reached_step _ _ _ _ R HS)|eapply later_trans; [exact L|apply step_later; exact HS]|].
    destruct HS as [spec s buf s1 E0 ET IS|spec s buf s1 spec' s2 E0 ET IS ED
                |flag buf spec s buf' s' E0 NE ET|flag buf spec s C]; cbn [read_at stream_of] in *; try exact Tp.
    eapply HD; [exists s; eauto|exact ED|eapply token_starts; eassumption|exact Tp]. }
  intros p (n & R). apply (G n _ _ R); [exists O; constructor|apply later_refl|exact T0].
Qed.
End Debug.

Lemma post_same_told : forall c raw s, post_process c raw = Ok s -> same_told raw s.
Proof.
  intros c raw s E. unfold post_process in E. destruct (bytes_eqb _ _); [|injection E as <-; repeat split].
  destruct (regroup_nodes c raw) as [m| | | |] eqn:EN; try discriminate. cbn [obind] in E.
  assert (A : same_told raw m).
  { unfold regroup_nodes in EN. cbv zeta in EN. repeat match type of EN with obind ?x _ = _ => destruct x; cbn [obind] in EN; try discriminate end.
    injection EN as <-. repeat split. }
  assert (B : same_told m s).
  { unfold regroup_elements in E. cbv zeta in E. repeat match type of E with obind ?x _ = _ => destruct x; cbn [obind] in E; try discriminate end.
    injection E as <-. repeat split. }
  destruct A as (A1 & A2 & A3 & A4), B as (B1 & B2 & B3 & B4). repeat split; congruence.
Qed.

Theorem common_told : forall c b s, ndebug c = false -> load_msh c b = Ok s -> told_common b s.
Proof.
  intros c b s D E. destruct (load_ends c b s E) as (raw & (st & R & _) & HP). eapply told_common_same; [eapply post_same_told; exact HP|].
  apply (loop_told c b (told_common b)) with (p := Main raw st); [|  |exact R].
  - split; [left; reflexivity|constructor|constructor|constructor].
  - intros name spec s0 spec' s' _ ED SB T. eapply dispatch_told_common; eassumption.
Qed.

Theorem mesh_told : forall c b s, ndebug c = false -> all_41 c b -> load_msh c b = Ok s -> told_mesh b s.
Proof.
  intros c b s D (H1 & H2) E. destruct (load_ends c b s E) as (raw & (st & R & EE) & HP).
  pose proof (H2 raw st R EE) as N. unfold post_process in HP.
  replace (bytes_eqb (version (mesh_format raw)) v22s) with false in HP by (symmetry; apply bytes_eqb_neq; exact N). injection HP as <-.
  apply (loop_told c b (told_mesh b)) with (p := Main raw st); [|  |exact R].
  - split; left; reflexivity.
  - intros name spec s0 spec' s' M ED SB T. eapply dispatch_told_mesh; try eassumption. exact (H1 _ _ _ M).
Qed.
