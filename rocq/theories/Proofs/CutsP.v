(** What is loaded from the beginning of a good 4.1 file. *)

From Verif Require Import Model.Save Spec.Consistent Spec.Steps Spec.Prefix Spec.Files22 Spec.Text41
  Proofs.BytesP Proofs.RtBase Proofs.Fuel Proofs.Reach Proofs.ShowP Proofs.Rt41A Proofs.Rt41B Proofs.RtStep Proofs.Compose Proofs.Rt41 Proofs.Text41P Proofs.PrefixP.

Ltac Zify.zify_post_hook ::= idtac.

Lemma walk_first : forall c P l n p q, walk c P l n p q -> P (read_at p).
Proof. intros c P l n p q []; assumption. Qed.

(** The run of a file read to the end goes nowhere else. *)
Lemma walk_reach : forall c P l n p f, walk c P l n p f ->
  (forall m r, steps c m f r -> P (read_at r)) -> forall m r, steps c m p r -> P (read_at r).
Proof.
  intros c P l n p f H. induction H as [p Hp|n p q f l l' Hp Hs W IH E]; intros T m r S.
  - exact (T m r S).
  - destruct S as [p|m p q' r S1 S2]; [exact Hp|].
    rewrite (step_det _ _ _ _ S1 Hs) in S2. exact (IH T m r S2).
Qed.

Lemma at_end_steps : forall c spec u, ws u -> forall m r, steps c m (Main spec (opened u)) r -> read_at r = spec.
Proof.
  intros c spec u W m r S. inversion S as [|n p q r' S1 S2]; subst; [reflexivity|].
  assert (E : q = Main spec {| rest := []; eofb := true; failb := true |}).
  { eapply step_det; [exact S1|]. eapply step_word with (buf := []);
      [reflexivity|apply rd_token_end; exact W|reflexivity]. }
  subst q. inversion S2 as [|n' p' q' r'' S1' S2']; subst; [reflexivity|].
  inversion S1'; subst; discriminate.
Qed.

Lemma loaded_in : forall c P l b spec, LOADSw c P l b spec_default spec ->
  forall pt, reached c b pt -> P (read_at pt).
Proof.
  intros c P l b spec H pt (m & R). destruct (H [] [] ws_nil) as (n & u & W & K).
  rewrite !app_nil_r in K.
  assert (PS : P spec).
  { clear -K. remember (Main spec (opened u)) as f eqn:E. induction K; [subst p; assumption|auto]. }
  eapply (walk_reach _ _ _ _ _ _ K); [|exact R].
  intros m' r S. rewrite (at_end_steps _ _ _ W _ _ S). exact PS.
Qed.

Lemma prefix_in : forall c P l p q spec s', ndebug c = false ->
  LOADSw c P l (p ++ q) spec_default spec -> (forall x, P x -> version (mesh_format x) <> str "2.2") ->
  load_msh c p = Ok s' -> exists x, P x /\ same_mesh x s'.
Proof.
  intros c P l p q spec s' D H NV L.
  assert (N : never_22 c (p ++ q)) by (intros pt R; apply NV; eapply loaded_in; eassumption).
  assert (PS : P spec).
  { destruct (H [] [] ws_nil) as (n & u & W & K). remember (Main spec (opened (u ++ []))) as f eqn:E.
    clear -K E. induction K; [subst p0; assumption|auto]. }
  assert (LA : load_msh c (p ++ q) = Ok spec).
  { rewrite (LOADSw_file _ _ _ _ _ H). unfold post_process.
    destruct (bytes_eqb (version (mesh_format spec)) v22s) eqn:E; [|reflexivity].
    apply bytes_eqb_eq in E. elim (NV _ PS). exact E. }
  destruct (prefix_mesh c p q spec s' D N LA L) as (pt & u & [R _] & SM & _).
  exists (read_at pt). split; [eapply loaded_in; eassumption|exact SM].
Qed.

(** Any beginning of a file of the documented layout. *)
Lemma prefix_file41 : forall c ascii ps p q s', ndebug c = false ->
  Text41.file41 ascii ps (p ++ q) -> Forall (sec_ok c ascii) ps -> load_msh c p = Ok s' ->
  exists k, same_mesh (content41 ascii (firstn k ps)) s'.
Proof.
  intros c ascii ps p q s' D F OK L. pose proof (file41_LOADS c ascii ps (p ++ q) F OK) as H.
  edestruct (prefix_in c _ _ p q _ s' D H) as (x & [-> |[k ->]] & SM); try assumption.
  - intros x [-> |[k ->]]; discriminate.
  - exists O. exact SM.
  - exists k. exact SM.
Qed.

(** Any beginning of a saved file. *)
Section Saved.
Variables (c : cfg) (a : bool) (s : MshSpec).
Hypothesis K : consistent41 c a s.

Definition inside (x : MshSpec) : Prop :=
  version (mesh_format x) <> v22s /\ first_part x (via41 a r6 (nanospline c) s).

Lemma piece41_in : PIECE_in c inside (save_msh c s) spec_default (via41 a r6 (nanospline c) s).
Proof.
  destruct K as [Hv Ht Hd [Kg Knn Kn Kne Ke Knd Ked Kend] Hen Hns].
  assert (Ht' : file_type (mesh_format s) = ftype a) by exact Ht.
  assert (F : fmt41 a s) by (split; assumption).
  assert (NV : version (mesh_format s) <> v22s) by (rewrite Hv; discriminate).
  assert (FK : forall A B (f : A -> B) k l, map f (firstn k l) = firstn k (map f l)) by (intros; symmetry; apply firstn_map).
  assert (FA : forall A (l : list A), l = firstn (List.length l) l) by (intros; symmetry; apply firstn_all).
  assert (P : PIECE_in c inside (save_msh c s) spec_default
    (ns_via c a s
    (set_element_node_data (map (data_via a r6) (element_node_data s))
    (set_element_data (map (data_via a r6) (element_data s))
    (set_node_data (map (data_via a r6) (node_data s))
    (set_elements (elements_via (elements s))
    (set_nodes (nodes_via a r6 (nodes s))
    (set_entities (entities_via a r6 (entities s))
    (set_physical_groups (physical_groups s)
    (set_format (mesh_format s) spec_default)))))))))).
  { unfold save_msh.
    eapply PIECE_in_seq; [eapply PIECE_in_imp; [|apply format_SOLE; [left; exact Hv| |left; exact Hd]]|].
    { intros x [-> | ->]; (split; [assumption || discriminate|]); constructor; auto; exists O; auto. }
    { rewrite Ht'. destruct a; auto. }
    eapply PIECE_in_seq; [eapply PIECE_in_imp; [|apply groups_SOLE; [exact Kg|reflexivity]]|].
    { intros x [-> | ->]; (split; [assumption|]); constructor; auto; exists O; auto. }
    eapply PIECE_in_seq; [eapply PIECE_in_imp; [|apply (entities_SOLE c a); auto]|].
    { intros x [-> | ->]; (split; [assumption|]); constructor; auto; try (exists O; auto). }
    eapply PIECE_in_seq; [eapply PIECE_in_imp; [|apply (nodes_SOLE c a); auto]|].
    { intros x [-> | ->]; (split; [assumption|]); constructor; auto; try (exists O; auto). }
    eapply PIECE_in_seq; [eapply PIECE_in_imp; [|apply (elements_SOLE c a); auto]|].
    { intros x [-> | ->]; (split; [assumption|]); constructor; auto; try (exists O; auto). }
    eapply PIECE_in_seq; [eapply PIECE_in_imp; [|apply (node_data_PIECE_in c v41s a); auto]|].
    { intros x [k ->]; (split; [assumption|]); constructor; auto; [exists k; cbn; auto|exists O; auto..]. }
    eapply PIECE_in_seq; [eapply PIECE_in_imp; [|apply (element_data_PIECE_in c v41s a); auto]|].
    { intros x [k ->]; (split; [assumption|]); constructor; auto; [eexists; split; [apply FA|auto]|exists k; cbn; auto|exists O; auto]. }
    eapply PIECE_in_seq; [eapply PIECE_in_imp; [|apply (element_node_data_PIECE_in c v41s a); auto]|].
    { intros x [k ->]; (split; [assumption|]); constructor; auto;
        [eexists; split; [apply FA|auto]|eexists; split; [apply FA|auto]|exists k; cbn; auto]. }
    assert (SP : forall x y z, inside (set_patches x (set_curves y (set_ns_version z
       (set_element_node_data (map (data_via a r6) (element_node_data s))
    (set_element_data (map (data_via a r6) (element_data s))
    (set_node_data (map (data_via a r6) (node_data s))
    (set_elements (elements_via (elements s))
    (set_nodes (nodes_via a r6 (nodes s))
    (set_entities (entities_via a r6 (entities s))
    (set_physical_groups (physical_groups s)
    (set_format (mesh_format s) spec_default)))))))))))).
    { intros; (split; [assumption|]); constructor; auto; eexists; (split; [apply FA|auto]). }
    match goal with |- PIECE_in _ _ _ ?x _ => set (base := x) in * end.
    assert (Fb : fmt v41s a base) by (split; assumption).
    assert (C0 : curves base = []) by reflexivity. assert (P0 : patches base = []) by reflexivity.
    assert (EB : base = set_patches [] (set_curves [] (set_ns_version (ns_version base) base))).
    { unfold base. reflexivity. }
    unfold ns_via. destruct (nanospline c) eqn:N.
    2:{ eapply PIECE_in_imp; [|apply PIECE1_ret]. intros x [-> | ->]; rewrite EB; apply SP. }
    destruct (Hns eq_refl) as [Hw [Hc Hcm] [Hp Hpm]].
    eapply PIECE_in_seq; [eapply PIECE_in_imp; [|apply ns_format_SOLE; exact Hw]|].
    { intros x [-> | ->]; [rewrite EB; apply SP|].
      replace (set_ns_version (ns_version s) base) with (set_patches [] (set_curves [] (set_ns_version (ns_version s) base))) by reflexivity.
      apply SP. }
    eapply PIECE_in_seq; [eapply PIECE_in_imp; [|eapply (curves_SOLE c v41s a); auto]|].
    { intros x [-> | ->].
      - replace (set_ns_version (ns_version s) base) with (set_patches [] (set_curves [] (set_ns_version (ns_version s) base))) by reflexivity. apply SP.
      - match goal with |- inside ?x => replace x with (set_patches [] x) by reflexivity end. apply SP. }
    eapply PIECE_in_imp; [|eapply (patches_SOLE c v41s a); auto].
    intros x [-> | ->]; [|apply SP].
    match goal with |- inside ?x => replace x with (set_patches [] x) by reflexivity end. apply SP. }
  destruct P as (b & E & L). exists b. split; [exact E|].
  match type of L with LOADS_in _ _ _ _ ?x => set (res := x) in * end.
  assert (R : res = via41 a r6 (nanospline c) s).
  { unfold res, ns_via, via41. destruct (nanospline c); reflexivity. }
  rewrite R in L. exact L.
Qed.

Lemma prefix_saved : forall p q s', ndebug c = false -> save_msh c s = (p ++ q, Ok tt) -> load_msh c p = Ok s' ->
  first_part s' (via41 a r6 (nanospline c) s).
Proof.
  intros p q s' D E L. destruct piece41_in as (t & E' & H). rewrite E in E'. injection E' as <-.
  edestruct (prefix_in c _ _ p q _ s' D H) as (x & [_ X] & SM); try assumption.
  - intros x [V _]. exact V.
  - destruct SM as (Q1 & Q2 & Q3 & Q4 & Q5 & Q6 & Q7). destruct X as [X1 X2 X3 X4 X5 X6 X7].
    rewrite Q1, Q2, Q3, Q4, Q5, Q6, Q7 in *. constructor; assumption.
Qed.
End Saved.
