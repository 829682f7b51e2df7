(** What a 2.2 file loads is written in it. *)

From Verif Require Import Model.LoadMsh Spec.Told22 Spec.Steps Spec.Files22 Spec.Prefix Proofs.BytesP Proofs.RtBase Proofs.Mono Proofs.Hoare Proofs.TriP
  Proofs.ExtP Proofs.Load22P Proofs.Text22P Proofs.File22P Proofs.RegroupP Proofs.WeightP Proofs.SkipP Proofs.PrefixP Proofs.SuffixP Proofs.ToldP Proofs.ToldSecP
  Proofs.ToldFileP Proofs.Told22NodesP Proofs.Told22ElemsP.

Ltac Zify.zify_post_hook ::= idtac.

Lemma not_good : forall s, good s = false -> eofb s = true \/ stuck s.
Proof. intros s G. unfold good in G. unfold stuck. destruct (eofb s), (failb s); try discriminate; auto. Qed.

Lemma holds_same : forall ps s s', same_solid s s' -> holds22 ps s -> holds22 ps s'.
Proof. intros ps s s' (E1 & E2 & E3) [H1 H2 H3]. split; [rewrite E2|rewrite E3|rewrite E1]; assumption. Qed.

Lemma entities_snoc : forall ps p a b d, entities_from ps a b -> entities_from [p] b d -> entities_from (ps ++ [p]) a d.
Proof. intros ps p a b d H1 H2. eapply entities_from_app; eassumption. Qed.

(** What is known at a loop test. *)
Definition known (b : bytes) (spec : MshSpec) (s : istream) : Prop :=
  (exists ps, parts_in b ps (rest s) /\ holds22 ps spec) \/
  (eofb s = true /\ exists ps, written22 b ps /\ holds22 ps spec) \/
  stuck s.

Lemma known_later : forall b spec s s', (exists ps, parts_in b ps (rest s) /\ holds22 ps spec) -> later s s' -> known b spec s'.
Proof.
  intros b spec s s' (ps & P & H) (u & E). left. exists ps. split; [|exact H]. eapply parts_skip. rewrite <- E. exact P.
Qed.

Lemma stuck_token : forall o s t s', rd_token o s = (t, s') -> stuck s -> t = o /\ stuck s'.
Proof.
  intros o s t s' E [F N]. unfold rd_token in E. destruct (sentry_cases s) as [(G & _)|[(G & _)|(_ & ES)]]; [unfold good in G; rewrite F, N in G; discriminate..|].
  rewrite ES in E. injection E as <- <-. split; [reflexivity|]. split; [reflexivity|exact N].
Qed.

Section File.
Variable c : cfg.
Hypothesis D : ndebug c = false.

Lemma dispatch_known : forall b ps name spec s spec' s',
  (name = str "$Entities" \/ name = str "$Nodes" \/ name = str "$Elements" -> version (mesh_format spec) = str "2.2") ->
  dispatch c name spec s = Ok (spec', s') -> parts_in b ps (name ++ rest s) -> holds22 ps spec -> known b spec' s'.
Proof.
  intros b ps name spec s spec' s' Hv E P H.
  assert (SAME : forall m : M MshSpec, m s = Ok (spec', s') -> post m (same_solid spec) -> known b spec' s').
  { intros m Em Pm. eapply (known_later _ _ s); [|eapply suf_dispatch; exact E].
    exists ps. split; [eapply parts_skip; exact P|]. eapply holds_same; [|exact H]. eapply Pm. exact Em. }
  unfold dispatch in E.
  destruct (bytes_eqb name (str "$MeshFormat")); [eapply SAME; [exact E|unfold load_mesh_format; post_frame ltac:(repeat split)]|].
  destruct (bytes_eqb name (str "$Entities")) eqn:E1.
  { apply bytes_eqb_eq in E1. specialize (Hv (or_introl E1)). unfold load_entities in E. rewrite Hv in E. discriminate E. }
  destruct (bytes_eqb name (str "$PhysicalNames")); [eapply SAME; [exact E|unfold load_physical_groups; post_frame ltac:(repeat split)]|].
  destruct (bytes_eqb name (str "$Nodes")) eqn:E2.
  { apply bytes_eqb_eq in E2. specialize (Hv (or_intror (or_introl E2))). subst name.
    destruct (nodes22_section c _ _ _ _ D Hv E) as (l & ascii & A1 & A2 & A3 & C).
    assert (HL : holds22 (ps ++ [NodesPart l]) spec').
    { destruct H as [H1 H2 H3]. split.
      - rewrite A1, H1. unfold all_nodes. rewrite flat_map_app. cbn [flat_map part_nodes]. rewrite app_nil_r. reflexivity.
      - rewrite A2, H2. unfold all_recs. rewrite flat_map_app. cbn [flat_map part_recs]. rewrite app_nil_r. reflexivity.
      - rewrite A3. eapply entities_snoc; [exact H3|]. constructor. constructor. }
    destruct C as [(G & t & T1 & T2)|(G & -> & T)].
    - left. exists (ps ++ [NodesPart l]). split; [|exact HL]. apply (parts_next b ps (NodesPart l) ascii t); [|exact T2]. rewrite <- T1. exact P.
    - destruct (not_good _ G) as [G'|G']; [|right; right; exact G']. right. left. split; [exact G'|]. exists (ps ++ [NodesPart l]). split; [|exact HL].
      right. exists ps, (NodesPart l), false, (rest s). split; [reflexivity|]. split; [exact P|]. split; [reflexivity|exact T]. }
  destruct (bytes_eqb name (str "$Elements")) eqn:E3.
  { apply bytes_eqb_eq in E3. specialize (Hv (or_intror (or_intror E3))). subst name.
    destruct (elements22_section c _ _ _ _ Hv E) as (l & ascii & A1 & A2 & A3 & A4 & C).
    assert (HL : holds22 (ps ++ [ElementsPart l]) spec').
    { destruct H as [H1 H2 H3]. split.
      - rewrite A2, H1. unfold all_nodes. rewrite flat_map_app. cbn [flat_map part_nodes]. rewrite app_nil_r. reflexivity.
      - rewrite A1, H2. unfold all_recs. rewrite flat_map_app, map_app. cbn [flat_map part_recs]. rewrite app_nil_r. reflexivity.
      - eapply entities_snoc; [exact H3|]. econstructor; [exact A3|constructor]. }
    destruct C as [(G & t & T1 & T2)|(G & T)].
    - left. exists (ps ++ [ElementsPart l]). split; [|exact HL]. apply (parts_next b ps (ElementsPart l) ascii t); [|split; [exact A4|exact T2]]. rewrite <- T1. exact P.
    - destruct (not_good _ G) as [G'|G']; [|right; right; exact G']. right. left. split; [exact G'|]. exists (ps ++ [ElementsPart l]). split; [|exact HL].
      right. exists ps, (ElementsPart l), ascii, (rest s). split; [reflexivity|]. split; [exact P|]. split; [exact A4|exact T]. }
  destruct (bytes_eqb name (str "$NodeData")); [eapply SAME; [exact E|unfold load_node_data; post_frame ltac:(repeat split)]|].
  destruct (bytes_eqb name (str "$ElementData")); [eapply SAME; [exact E|unfold load_element_data; post_frame ltac:(repeat split)]|].
  destruct (bytes_eqb name (str "$ElementNodeData")); [eapply SAME; [exact E|unfold load_element_node_data; post_frame ltac:(repeat split)]|].
  destruct (bytes_eqb name (str "$NanoSplineFormat")); [eapply SAME; [exact E|unfold load_nanospline_format; post_frame ltac:(repeat split)]|].
  destruct (bytes_eqb name (str "$Curves")); [eapply SAME; [exact E|unfold load_curves; post_frame ltac:(repeat split)]|].
  destruct (bytes_eqb name (str "$Patches")); [eapply SAME; [exact E|unfold load_patches; post_frame ltac:(repeat split)]|].
  eapply SAME; [exact E|apply post_ret; repeat split].
Qed.

Lemma reached_known : forall b, all_22 c b -> forall p, reached c b p -> known b (read_at p) (stream_of p).
Proof.
  intros b HA.
  assert (G : forall n p q, steps c n p q -> reached c b p -> known b (read_at p) (stream_of p) -> known b (read_at q) (stream_of q)).
  { intros n p q H. induction H as [p|n p q r HS H IH]; intros R K; [exact K|].
    apply IH; [exact (reached_step _ _ _ _ R HS)|]. pose proof (step_later c _ _ HS) as L.
    destruct HS as [spec s buf s1 E0 ET IS|spec s buf s1 spec' s2 E0 ET IS ED
                |flag buf spec s buf' s' E0 NE ET|flag buf spec s C]; cbn [read_at stream_of] in *.
    - destruct K as [K|[(K & _)|K]]; [eapply known_later; eassumption|congruence|]. right. right. exact (proj2 (stuck_token _ _ _ _ ET K)).
    - destruct K as [K|[(K & _)|K]]; [|congruence|].
      + destruct K as (ps & P & HP). destruct (token_starts (rest s) s buf s1 (later_refl s) ET IS) as (u & EU). rewrite EU in P. apply parts_skip in P.
        eapply dispatch_known; [|exact ED|exact P|exact HP]. apply HA with (s := s1). exists s. auto.
      + exfalso. destruct (stuck_token _ _ _ _ ET K) as [-> _]. discriminate.
    - destruct K as [K|[(K & _)|K]]; [eapply known_later; eassumption|congruence|]. right. right. exact (proj2 (stuck_token _ _ _ _ ET K)).
    - exact K. }
  intros p (n & R). apply (G n _ _ R); [exists O; constructor|]. cbn [start read_at stream_of]. left. exists []. split; [constructor|].
  split; [reflexivity|reflexivity|constructor].
Qed.

Theorem told22 : forall b s, all_22 c b -> version (mesh_format s) = str "2.2" -> load_msh c b = Ok s ->
  exists ps, written22 b ps /\ holds22 ps s.
Proof.
  intros b s HA V E. destruct (load_ends c b s E) as (raw & EW & HP). pose proof EW as (st & R & EE).
  assert (F : file_22 c b raw).
  { split; [exact EW|]. split; [|exact (post_version c raw s HP V)]. intros name spec s0 M N. eapply HA; [exact M|tauto]. }
  destruct (load22 c b raw s F E) as [RG _].
  assert (X : exists ps, written22 b ps /\ holds22 ps raw).
  { destruct (reached_known b HA _ R) as [(ps & P & H)|[(_ & K)|(_ & K)]]; cbn [read_at stream_of] in *.
    - exists ps. split; [left; eauto|exact H].
    - exact K.
    - congruence. }
  destruct X as (ps & W & [H1 H2 H3]). exists ps. split; [exact W|]. split; [rewrite (rgd_nodes _ _ RG); exact H1|rewrite (rgd_elements _ _ RG); exact H2|].
  destruct (rgd_rest _ _ RG) as (nbs & ebs & ->). exact H3.
Qed.
End File.
