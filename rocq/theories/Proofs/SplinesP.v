(** Reading files of the other build. *)

From Verif Require Import Model.Save Spec.Consistent Spec.Consistent22 Spec.Steps Spec.Words Spec.Splines Spec.Builds
  Proofs.BytesP Proofs.RtBase Proofs.ShowP Proofs.WriteP Proofs.RtStep Proofs.Rt41A Proofs.Rt41B Proofs.Compose
  Proofs.Reach Proofs.Fuel Proofs.HeaderP Proofs.Rt41 Proofs.Rt22 Proofs.SavedTextP Proofs.BuildsP.

Ltac Zify.zify_post_hook ::= idtac.

(** ** The writers *)

(** save_msh up to the splines, then [w]. *)
Definition then_ (s : MshSpec) (w : W) : W :=
  save_mesh_format s +++
  (if 0 <? zlen (physical_groups s) then save_physical_groups s else wret) +++
  (if negb (entities_empty (entities s)) then save_entities s else wret) +++
  (if 0 <? n_num_nodes (nodes s) then save_nodes s else wret) +++
  (if 0 <? e_num_elements (elements s) then save_elements s else wret) +++
  (if 0 <? zlen (node_data s) then save_node_data s else wret) +++
  (if 0 <? zlen (element_data s) then save_element_data s else wret) +++
  (if 0 <? zlen (element_node_data s) then save_element_node_data s else wret) +++ w.

Definition spline_part (c : cfg) (s : MshSpec) : W :=
  save_nanospline_format s +++
  (if 0 <? zlen (curves s) then save_curves c s else wret) +++
  (if 0 <? zlen (patches s) then save_patches c s else wret).

Lemma save_on : forall c s, nanospline c = true -> save_msh c s = then_ s (spline_part c s).
Proof. intros c s H. unfold save_msh. rewrite H. reflexivity. Qed.
Lemma save_off : forall c s, nanospline c = false -> save_msh c s = then_ s wret.
Proof. intros c s H. unfold save_msh. rewrite H. reflexivity. Qed.

Lemma wseq_assoc : forall a b d, (a +++ b) +++ d = a +++ (b +++ d).
Proof.
  intros [x [[]|e|u| |]] [y [[]|e'|u'| |]] [z r]; cbn [wseq fst snd]; rewrite ?app_assoc; reflexivity.
Qed.
Lemma wret_r : forall a, a +++ wret = a.
Proof. intros [x [[]|e|u| |]]; cbn [wseq wret fst snd]; rewrite ?app_nil_r; reflexivity. Qed.

Lemma then_split : forall s w, then_ s w = then_ s wret +++ w.
Proof. intros s w. unfold then_. rewrite !wseq_assoc. cbn [wseq wret fst snd app]. destruct w; reflexivity. Qed.

(** ** Text the loader without the extension passes over *)

Definition spline_marks : list bytes := map str ["Curves"; "Patches"; "EndCurves"; "EndPatches"]%string.

(** Every dollar sign starts one of these words. *)
Definition dollars (t : bytes) : Prop :=
  forall p q, t = p ++ x24 :: q -> exists m r, In m spline_marks /\ q = m ++ r.

Lemma dollars_free : forall t, ~ In x24 t -> dollars t.
Proof. intros t N p q E. exfalso. apply N. rewrite E. apply in_or_app. right. left. reflexivity. Qed.

Lemma dollars_suffix : forall p t, dollars (p ++ t) -> dollars t.
Proof. intros p t D a q E. apply (D (p ++ a)). rewrite E, app_assoc. reflexivity. Qed.

Lemma dollars_app : forall a b, dollars a -> dollars b -> dollars (a ++ b).
Proof.
  intros a b A B p q E. apply app_eq_app in E. destruct E as (l & [[E1 E2]|[E1 E2]]).
  - destruct l as [|x l].
    + cbn [app] in E2. apply (B []). symmetry. exact E2.
    + cbn [app] in E2. injection E2 as <- ->. destruct (A p l) as (m & r & I & ->); [exact E1|].
      exists m, (r ++ b). split; [exact I|]. rewrite app_assoc. reflexivity.
  - apply (B l). exact E2.
Qed.

Lemma dollars_concat : forall l, Forall dollars l -> dollars (List.concat l).
Proof.
  intros l H. induction H; [apply dollars_free; intros []|]. cbn [List.concat]. apply dollars_app; assumption.
Qed.

Lemma dollars_mark : forall m, In m spline_marks -> dollars (x24 :: m ++ endl).
Proof.
  intros m H p q E. destruct p as [|x p].
  - cbn [app] in E. injection E as <-. exists m, endl. split; [exact H|reflexivity].
  - cbn [app] in E. injection E as _ E. exfalso.
    assert (N : ~ In x24 (m ++ endl)).
    { cbn [spline_marks map In] in H. destruct H as [<-|[<-|[<-|[<-|[]]]]]; vm_compute; intuition discriminate. }
    apply N. rewrite E. apply in_or_app. right. left. reflexivity.
Qed.

Lemma dispatch_mark : forall c w r spec, nanospline c = false -> dollars (x24 :: w ++ r) ->
  dispatch c (x24 :: w) spec = ret spec.
Proof.
  intros c w r spec N D. destruct (D [] (w ++ r) eq_refl) as (m & q & I & E).
  assert (X : forall y, In y ["$MeshFormat"; "$Entities"; "$PhysicalNames"; "$Nodes"; "$Elements"; "$NodeData";
     "$ElementData"; "$ElementNodeData"; "$NanoSplineFormat"]%string -> bytes_eqb (x24 :: w) (str y) = false).
  { intros y Iy. apply bytes_eqb_neq. intro F. cbn [map In spline_marks] in I, Iy.
    destruct I as [<-|[<-|[<-|[<-|[]]]]];
      repeat (destruct Iy as [<-|Iy]; [cbn in F; injection F as ->; cbn in E; discriminate E|]); destruct Iy. }
  unfold dispatch. unfold load_curves, load_patches. rewrite N.
  rewrite (X "$MeshFormat"%string), (X "$Entities"%string), (X "$PhysicalNames"%string), (X "$Nodes"%string),
    (X "$Elements"%string), (X "$NodeData"%string), (X "$ElementData"%string), (X "$ElementNodeData"%string),
    (X "$NanoSplineFormat"%string) by (cbn [In]; auto 12).
  destruct (bytes_eqb _ _); [reflexivity|]. destruct (bytes_eqb _ _); reflexivity.
Qed.

Lemma first_word : forall t, blank t \/ exists u w r, blank u /\ word w /\ ends_word r /\ t = u ++ w ++ r.
Proof.
  induction t as [|b t IH]; [left; constructor|]. destruct (is_ws b) eqn:E.
  - destruct IH as [B|(u & w & r & U & W & R & ->)].
    + left. constructor; assumption.
    + right. exists (b :: u), w, r. repeat split; try assumption; try apply W. constructor; assumption.
  - right. assert (T : exists w r, Forall (fun x => is_ws x = false) w /\ ends_word r /\ t = w ++ r).
    { clear IH. induction t as [|x t IH]; [exists [], []; repeat split; constructor|].
      destruct (is_ws x) eqn:X; [exists [], (x :: t); repeat split; [constructor|exact X]|].
      destruct IH as (w & r & W & R & ->). exists (x :: w), r. repeat split; [constructor; assumption|exact R]. }
    destruct T as (w & r & W & R & ->). exists [], (b :: w), r. repeat split; [constructor|discriminate| |exact R].
    constructor; assumption.
Qed.

Lemma finish_eof : forall c spec s, eofb s = true -> finishes c (Main spec s) (Ok (spec, s)).
Proof. intros c spec s E. split; [discriminate|]. exists 1%nat. cbn [run load_loop]. rewrite E. reflexivity. Qed.

Lemma at_end_cases : forall r, eofb (at_end r (opened r)) = true \/ at_end r (opened r) = opened r /\ r <> [].
Proof. intros [|b r]; [left; reflexivity|right; split; [reflexivity|discriminate]]. Qed.

(** Such text leaves everything as it is. *)
Lemma passes : forall c, nanospline c = false -> forall n t, (List.length t <= n)%nat -> dollars t ->
  (forall spec, exists st, finishes c (Main spec (opened t)) (Ok (spec, st))) /\
  (forall flag buf spec, exists st, finishes c (Fwd flag buf spec (opened t)) (Ok (spec, st))).
Proof.
  intros c N. induction n as [n IH] using lt_wf_ind. intros t L D.
  assert (A : forall spec, exists st, finishes c (Main spec (opened t)) (Ok (spec, st))).
  { intro spec. destruct (first_word t) as [B|(u & w & r & U & W & R & ->)].
    { eexists. split; [discriminate|]. exists 2%nat. exact (load_loop_end 0 c spec t B). }
    pose proof (rd_token_text [] u w r U W R) as T.
    assert (LR : (List.length r < n)%nat).
    { rewrite !app_length in L. destruct W as [W _]. destruct w; [congruence|]. cbn [List.length] in L. lia. }
    assert (DR : dollars r) by (apply (dollars_suffix (u ++ w)); rewrite <- app_assoc; exact D).
    destruct (is_section w) eqn:S.
    - destruct w as [|b w]; [discriminate S|]. assert (b = x24) as -> by (destruct b; try discriminate S; reflexivity).
      assert (P : dispatch c (x24 :: w) spec (at_end r (opened r)) = Ok (spec, at_end r (opened r))).
      { rewrite (dispatch_mark c w r spec N); [reflexivity|]. apply (dollars_suffix u). exact D. }
      pose proof (step_section c spec _ _ _ _ _ (eq_refl : eofb (opened (u ++ (x24 :: w) ++ r)) = false) T S P) as ST.
      destruct (at_end_cases r) as [E|[E NR]].
      + eexists. eapply finishes_back; [exact ST|]. eapply finishes_back; [apply step_found; left; exact E|].
        apply finish_eof. exact E.
      + rewrite E in ST. destruct (IH _ LR r (le_n _) DR) as [_ IHF]. destruct (IHF (end_marker (x24 :: w)) [] spec) as (st & F).
        exists st. eapply finishes_back; [exact ST|exact F].
    - pose proof (step_word c spec _ _ _ (eq_refl : eofb (opened (u ++ w ++ r)) = false) T S) as ST.
      destruct (at_end_cases r) as [E|[E NR]].
      + eexists. eapply finishes_back; [exact ST|]. apply finish_eof. exact E.
      + rewrite E in ST. destruct (IH _ LR r (le_n _) DR) as [IHM _]. destruct (IHM spec) as (st & F).
        exists st. eapply finishes_back; [exact ST|exact F]. }
  split; [exact A|]. intros flag buf spec. destruct (bytes_eqb buf flag) eqn:EB.
  { apply bytes_eqb_eq in EB. destruct (A spec) as (st & F). exists st. eapply finishes_back; [apply step_found; right; exact EB|exact F]. }
  apply bytes_eqb_neq in EB.
  destruct (first_word t) as [B|(u & w & r & U & W & R & ->)].
  - eexists. eapply finishes_back; [eapply step_skip; [reflexivity|exact EB|apply rd_token_end; exact B]|].
    eapply finishes_back; [apply step_found; left; reflexivity|]. apply finish_eof. reflexivity.
  - pose proof (rd_token_text buf u w r U W R) as T.
    assert (LR : (List.length r < n)%nat).
    { rewrite !app_length in L. destruct W as [W _]. destruct w; [congruence|]. cbn [List.length] in L. lia. }
    assert (DR : dollars r) by (apply (dollars_suffix (u ++ w)); rewrite <- app_assoc; exact D).
    pose proof (step_skip c flag buf spec _ _ _ (eq_refl : eofb (opened (u ++ w ++ r)) = false) EB T) as ST.
    destruct (at_end_cases r) as [E|[E NR]].
    + eexists. eapply finishes_back; [exact ST|]. eapply finishes_back; [apply step_found; left; exact E|]. apply finish_eof. exact E.
    + rewrite E in ST. destruct (IH _ LR r (le_n _) DR) as [_ IHF]. destruct (IHF flag w spec) as (st & F).
      exists st. eapply finishes_back; [exact ST|exact F].
Qed.

Lemma LOADS_then : forall c t r spec, nanospline c = false -> LOADS c t spec_default spec -> dollars r ->
  load_msh c (t ++ r) = post_process c spec.
Proof.
  intros c t r spec N L D. destruct (LOADS_complete c t spec L r) as (u & W & R).
  assert (DU : dollars (u ++ r)).
  { apply dollars_app; [|exact D]. apply dollars_free. intro I. rewrite Forall_forall in W. specialize (W _ I). discriminate W. }
  destruct (passes c N _ (u ++ r) (le_n _) DU) as [A _]. destruct (A spec) as (st & F).
  rewrite (reached_result c (t ++ r) _ _ R F). reflexivity.
Qed.

(** ** The splines as written *)

Lemma nums_free : forall w, nums w -> ~ In x24 w.
Proof. intros w H I. unfold nums in H. rewrite Forall_forall in H. specialize (H _ I). discriminate H. Qed.

Lemma raw_free : forall x, dollar_free x -> ~ In x24 (le 8 x).
Proof.
  intros x H I.
  assert (G : forall n y, In x24 (le n y) -> exists i, 0 <= i < Z.of_nat n /\ (y / 256 ^ i) mod 256 = 36).
  { clear. induction n as [|n IH]; intros y I; [destruct I|]. cbn [le] in I. destruct I as [E|I].
    - exists 0. split; [lia|]. rewrite Z.pow_0_r, Z.div_1_r. rewrite <- b2z_z2b, E. reflexivity.
    - destruct (IH _ I) as (i & Hi & E). exists (i + 1). split; [lia|].
      rewrite Z.pow_add_r, Z.pow_1_r, (Z.mul_comm (256 ^ i)), <- Z.div_div by lia. exact E. }
  destruct (G _ _ I) as (i & Hi & E). exact (H i Hi E).
Qed.

Lemma free_app : forall a b : bytes, ~ In x24 a -> ~ In x24 b -> ~ In x24 (a ++ b).
Proof. intros a b A B I. apply in_app_or in I. tauto. Qed.
Lemma free_concat : forall l : list bytes, Forall (fun a => ~ In x24 a) l -> ~ In x24 (List.concat l).
Proof. intros l H. induction H; [intros []|]. cbn [List.concat]. apply free_app; assumption. Qed.
Lemma free_Z : forall z, ~ In x24 (show_Z z).
Proof. intro z. apply nums_free, nums_Z. Qed.
Lemma free_double : forall x, ~ In x24 (show_double x).
Proof. intro x. apply nums_free, nums_double. Qed.
Lemma free_sp : ~ In x24 sp.
Proof. vm_compute. intuition discriminate. Qed.
Lemma free_endl : ~ In x24 endl.
Proof. vm_compute. intuition discriminate. Qed.
Lemma free_line : forall l, ~ In x24 (line show_double l).
Proof.
  intro l. induction l as [|x [|y l] IH]; [intros []| |]; cbn [line].
  - apply free_app; [apply free_double|apply free_endl].
  - apply free_app; [apply free_double|]. apply free_app; [apply free_sp|exact IH].
Qed.
Lemma free_lines : forall l, ~ In x24 (List.concat (map (line show_double) l)).
Proof. intro l. apply free_concat. apply Forall_map. apply Forall_forall. intros x _. apply free_line. Qed.
Lemma free_each : forall l, ~ In x24 (each show_double l).
Proof.
  intro l. unfold each. apply free_concat. apply Forall_map. apply Forall_forall. intros x _.
  apply free_app; [apply free_double|apply free_endl].
Qed.
Lemma free_raw : forall l, Forall dollar_free l -> ~ In x24 (raw8 l).
Proof. intros l H. apply free_concat. apply Forall_map. eapply Forall_impl; [|exact H]. exact raw_free. Qed.

Ltac free := repeat first [apply free_app|apply free_Z|apply free_sp|apply free_endl].

Lemma free_curve : forall a k, (a = false -> Forall dollar_free (cv_data k)) -> ~ In x24 (curve_out a k).
Proof.
  intros [|] k H; unfold curve_out, curve_text, curve_bytes, curve_head; cbv zeta; free;
    auto using free_lines, free_each, free_raw.
Qed.
Lemma free_patch : forall a k, (a = false -> Forall dollar_free (pt_data k)) -> ~ In x24 (patch_out a k).
Proof.
  intros [|] k H; unfold patch_out, patch_text, patch_bytes, patch_head; cbv zeta; free;
    auto using free_lines, free_each, free_raw.
Qed.

Lemma Forall_flat : forall A (P : dbl -> Prop) (f : A -> list dbl) l x, Forall P (flat_map f l) -> In x l -> Forall P (f x).
Proof.
  intros A P f l x H I. apply Forall_forall. intros y Iy. rewrite Forall_forall in H. apply H.
  apply in_flat_map. exists x. split; assumption.
Qed.

(** What follows the version. *)
Lemma spline_text : forall c a s, file_type (mesh_format s) = ftype a -> splines_ok c a s ->
  (a = false -> Forall dollar_free (spline_values s)) ->
  exists h t, save_nanospline_format s = (h, Ok tt) /\ spline_part c s = (h ++ t, Ok tt) /\ dollars t.
Proof.
  intros c a s Ht [_ [HC _] [HP _]] HD. rewrite Forall_forall in HC, HP.
  assert (C : exists t, (if 0 <? zlen (curves s) then save_curves c s else wret) = (t, Ok tt) /\ dollars t).
  { destruct (0 <? zlen (curves s)); [|exists []; split; [reflexivity|apply dollars_free; intros []]].
    unfold save_curves. rewrite Ht, ftype_eqb.
    rewrite (wfor_ok _ (curves s) _ (curve_out a)) by (intros k I; apply save_curve_ab; auto).
    eexists. split; [reflexivity|].
    apply dollars_app; [apply (dollars_mark (str "Curves")); cbn; auto|].
    apply dollars_app; [apply dollars_free; free|].
    apply dollars_app; [|apply (dollars_mark (str "EndCurves")); cbn; auto].
    apply dollars_free, free_concat, Forall_map, Forall_forall. intros k I. apply free_curve. intro A.
    specialize (HD A). apply Forall_app in HD. eapply Forall_flat; [apply HD|exact I]. }
  assert (P : exists t, (if 0 <? zlen (patches s) then save_patches c s else wret) = (t, Ok tt) /\ dollars t).
  { destruct (0 <? zlen (patches s)); [|exists []; split; [reflexivity|apply dollars_free; intros []]].
    unfold save_patches. rewrite Ht, ftype_eqb.
    rewrite (wfor_ok _ (patches s) _ (patch_out a)) by (intros k I; apply save_patch_ab; auto).
    eexists. split; [reflexivity|].
    apply dollars_app; [apply (dollars_mark (str "Patches")); cbn; auto|].
    apply dollars_app; [apply dollars_free; free|].
    apply dollars_app; [|apply (dollars_mark (str "EndPatches")); cbn; auto].
    apply dollars_free, free_concat, Forall_map, Forall_forall. intros k I. apply free_patch. intro A.
    specialize (HD A). apply Forall_app in HD. eapply Forall_flat; [apply HD|exact I]. }
  destruct C as (tc & EC & DC), P as (tp & EP & DP). unfold spline_part. rewrite EC, EP.
  exists (fst (save_nanospline_format s)), (tc ++ tp). split; [reflexivity|]. split; [|apply dollars_app; assumption].
  reflexivity.
Qed.

(** ** 4.1 *)

Lemma main41 : forall c a s, consistent41 c a s -> PIECE c (then_ s wret) spec_default (via41 a ascii_round false s).
Proof.
  intros c a s [Hv Ht Hd [Kg Knn Kn Kne Ke Knd Ked Kend] Hen Hns].
  assert (Ht' : file_type (mesh_format s) = ftype a) by exact Ht.
  assert (F : fmt41 a s) by (split; assumption).
  unfold then_.
  eapply PIECE_seq; [apply format_PIECE; [left; exact Hv| |left; exact Hd]|].
  { rewrite Ht'. destruct a; auto. }
  eapply PIECE_seq; [apply groups_PIECE; [exact Kg|reflexivity]|].
  eapply PIECE_seq; [apply (entities_PIECE c a); auto|].
  eapply PIECE_seq; [apply (nodes_PIECE c a); auto|].
  eapply PIECE_seq; [apply (elements_PIECE c a); auto|].
  eapply PIECE_seq; [apply (node_data_PIECE c v41s a); auto|].
  eapply PIECE_seq; [apply (element_data_PIECE c v41s a); auto|].
  eapply PIECE_seq; [apply (element_node_data_PIECE c v41s a); auto|].
  apply PIECE_ret.
Qed.

Lemma post41 : forall c s, version (mesh_format s) = v41s -> post_process c s = Ok s.
Proof. intros c s H. unfold post_process. rewrite H. reflexivity. Qed.

(** A file of a build with the extension, read by one without. *)
Lemma read41 : forall c c' a s, nanospline c = true -> nanospline c' = false ->
  consistent41 c a s -> consistent41 c' a s -> (a = false -> Forall dollar_free (spline_values s)) ->
  exists b s', save_msh c s = (b, Ok tt) /\ load_msh c b = Ok s' /\ load_msh c' b = Ok (mesh_only s').
Proof.
  intros c c' a s N N' H H' HD. destruct (roundtrip41 c a s H) as (b & E & L).
  exists b. eexists. split; [exact E|]. split; [exact L|].
  destruct (spline_text c a s (ok41_type _ _ _ H) (ok41_splines _ _ _ H N) HD) as (h & t & EH & EP & D).
  destruct (main41 c' a s H') as (m & EM & LM).
  assert (B : b = (m ++ h) ++ t).
  { rewrite (save_on c s N), then_split, EM, EP in E. cbn [wseq fst snd] in E. injection E as <-. apply app_assoc. }
  rewrite B.
  destruct (ns_format_PIECE c' s (via41 a ascii_round false s)) as (h' & EH' & LH); [apply (ok41_splines _ _ _ H N)|].
  rewrite EH in EH'. injection EH' as <-.
  rewrite (LOADS_then c' (m ++ h) t _ N' (LOADS_app _ _ _ _ _ _ LM LH) D).
  rewrite post41 by (apply H). rewrite N. reflexivity.
Qed.

(** The other way round. *)
Lemma back41 : forall c c' a s, nanospline c' = false -> consistent41 c' a s -> consistent41 c a (no_splines s) ->
  exists b s', save_msh c' s = (b, Ok tt) /\ load_msh c' b = Ok s' /\ load_msh c b = Ok s'.
Proof.
  intros c c' a s N' H' H. destruct (main41 c' a s H') as (b & E & L'). destruct (main41 c a _ H) as (b2 & E2 & L).
  change (then_ (no_splines s) wret) with (then_ s wret) in E2. rewrite E in E2. injection E2 as <-.
  exists b, (via41 a ascii_round false s). rewrite (save_off c' s N'). split; [exact E|].
  rewrite (LOADS_file c' b _ L'), (LOADS_file c b _ L). split; [apply post41, H'|].
  apply (post41 c (via41 a ascii_round false (no_splines s))). apply H'.
Qed.

(** ** 2.2 *)

Definition main22 (a : bool) (s : MshSpec) : MshSpec :=
  set_element_node_data (map (data_via a ascii_round) (element_node_data s))
    (set_element_data (map (data_via a ascii_round) (element_data s))
    (set_node_data (map (data_via a ascii_round) (node_data s)) (mid22 a s))).

Lemma main22_loads : forall c a s, consistent22 c a s -> PIECE c (then_ s wret) spec_default (main22 a s).
Proof.
  intros c a s [Hv Ht Hd Kg Knn Kn Kne Ke Kr Kw [M1 M2] Knd Ked Kend Hns].
  assert (Ht' : file_type (mesh_format s) = ftype a) by exact Ht.
  assert (F : fmt v22s a s) by (split; assumption).
  assert (FB : fmt v22s a (base22 s)) by (split; assumption).
  destruct (nodes_step_rest a s (base22 s)) as (N1 & N2 & N3).
  pose proof (mid22_rest a s) as MR.
  pose proof (fmt_rest _ _ _ _ N1 FB) as FN. pose proof (fmt_rest _ _ _ _ MR FB) as FM.
  destruct MR as [_ _ (D1 & D2 & D3) (X1 & X2 & X3)].
  unfold then_.
  eapply PIECE_seq; [apply format_PIECE; [right; exact Hv| |right; split; [exact Hv|exact Hd]]|].
  { rewrite Ht'. destruct a; auto. }
  eapply PIECE_seq; [apply groups_PIECE; [exact Kg|reflexivity]|].
  eapply PIECE_seq; [instantiate (1 := base22 s)|].
  { unfold save_entities. cbv zeta. rewrite (proj1 F). change (bytes_eqb v22s v22s) with true. cbv iota.
    destruct (negb _); apply PIECE_ret. }
  eapply PIECE_seq; [apply (nodes_PIECE22 c a); auto|]. fold (nodes_step a s (base22 s)).
  eapply PIECE_seq; [apply (elements_PIECE22 c a); auto; rewrite N3; reflexivity|]. fold (mid22 a s).
  eapply PIECE_seq; [apply (node_data_PIECE c v22s a); auto|].
  eapply PIECE_seq; [apply (element_data_PIECE c v22s a); auto|].
  eapply PIECE_seq; [apply (element_node_data_PIECE c v22s a); auto|].
  apply PIECE_ret.
Qed.

(** Regrouping leaves the splines alone and does not depend on them. *)
Lemma post_splines : forall c v cs ps spec, post_process c (set_patches ps (set_curves cs (set_ns_version v spec))) =
  obind (post_process c spec) (fun s => Ok (set_patches ps (set_curves cs (set_ns_version v s)))).
Proof.
  intros c v cs ps spec. unfold post_process.
  change (version (mesh_format (set_patches ps (set_curves cs (set_ns_version v spec))))) with (version (mesh_format spec)).
  destruct (bytes_eqb _ _); [|reflexivity]. unfold regroup_nodes. cbv zeta.
  change (nodes (set_patches ps (set_curves cs (set_ns_version v spec)))) with (nodes spec).
  change (elements (set_patches ps (set_curves cs (set_ns_version v spec)))) with (elements spec).
  destruct (can_hold _ _ _ _); try reflexivity. cbn [obind]. destruct (ofold _ _ _); try reflexivity. cbn [obind].
  destruct (ofold _ _ _); try reflexivity. cbn [obind]. unfold regroup_elements. cbv zeta.
  cbn [set_nodes set_patches set_curves set_ns_version elements].
  destruct (can_hold _ _ _ _); try reflexivity. cbn [obind]. destruct (ofold _ _ _); reflexivity.
Qed.

(** Two machines that regroup a mesh agree on the result. *)
Lemma post_agree : forall c c' spec s s', post_process c spec = Ok s -> post_process c' spec = Ok s' -> s = s'.
Proof.
  intros [d n m] [d' n' m'] spec s s' H H'.
  pose (e := {| ndebug := true; nanospline := n; mem := Z.max m m' |}).
  assert (E1 : eases {| ndebug := d; nanospline := n; mem := m |} e) by (split; [reflexivity|split; [reflexivity|apply Z.le_max_l]]).
  assert (E2 : eases {| ndebug := d'; nanospline := n; mem := m' |} e) by (split; [reflexivity|split; [reflexivity|apply Z.le_max_r]]).
  change (post_process {| ndebug := d'; nanospline := n; mem := m' |} spec = Ok s') in H'.
  destruct (same_post _ _ E1 spec) as [X|[X|X]]; try congruence.
  destruct (same_post _ _ E2 spec) as [Y|[Y|Y]]; congruence.
Qed.

(** The regrouped mesh of a file, splines apart. *)
Lemma main_post : forall c a s, consistent22 c a s -> exists s', post_process c (main22 a s) = Ok s'.
Proof.
  intros c a s H. destruct (roundtrip22 c a s H) as (b & s' & E & L & _). destruct (piece22 c a s H) as (b2 & E2 & L2).
  rewrite E in E2. injection E2 as <-. rewrite (LOADS_file c b _ L2) in L.
  unfold raw22_of, ns_via in L. fold (main22 a s) in L. destruct (nanospline c); [|eauto].
  rewrite post_splines in L. destruct (post_process c (main22 a s)); try discriminate L. eauto.
Qed.

Lemma curves_main : forall a s, curves (main22 a s) = [] /\ patches (main22 a s) = [].
Proof. intros a s. destruct (mid22_rest a s) as [_ _ _ (X1 & X2 & X3)]. split; [exact X2|exact X3]. Qed.

Lemma post_rest : forall c spec s, post_process c spec = Ok s -> curves s = curves spec /\ patches s = patches spec.
Proof.
  intros c spec s H. unfold post_process in H. destruct (bytes_eqb _ _); [|injection H as <-; split; reflexivity].
  unfold regroup_nodes in H. cbv zeta in H. destruct (can_hold _ _ _ _); try discriminate H. cbn [obind] in H.
  destruct (ofold _ _ _); try discriminate H. cbn [obind] in H. destruct (ofold _ _ _); try discriminate H. cbn [obind] in H.
  unfold regroup_elements in H. cbv zeta in H. destruct (can_hold _ _ _ _); try discriminate H. cbn [obind] in H.
  destruct (ofold _ _ _); try discriminate H. injection H as <-. split; reflexivity.
Qed.

Lemma read22 : forall c c' a s, nanospline c = true -> nanospline c' = false ->
  consistent22 c a s -> consistent22 c' a s -> (a = false -> Forall dollar_free (spline_values s)) ->
  exists b s', save_msh c s = (b, Ok tt) /\ load_msh c b = Ok s' /\ load_msh c' b = Ok (mesh_only s').
Proof.
  intros c c' a s N N' H H' HD. destruct (piece22 c a s H) as (b & E & L).
  destruct (main_post c a s H) as (p & P). destruct (main_post c' a s H') as (p' & P').
  rewrite (post_agree _ _ _ _ _ P' P) in P'. clear p'.
  exists b. eexists. split; [exact E|]. split.
  { rewrite (LOADS_file c b _ L). unfold raw22_of, ns_via. fold (main22 a s). rewrite N, post_splines, P. reflexivity. }
  destruct (spline_text c a s (ok22_type _ _ _ H) (ok22_splines _ _ _ H N) HD) as (h & t & EH & EP & D).
  destruct (main22_loads c' a s H') as (m & EM & LM).
  assert (B : b = (m ++ h) ++ t).
  { rewrite (save_on c s N), then_split, EM, EP in E. cbn [wseq fst snd] in E. injection E as <-. apply app_assoc. }
  rewrite B.
  destruct (ns_format_PIECE c' s (main22 a s)) as (h' & EH' & LH); [apply (ok22_splines _ _ _ H N)|].
  rewrite EH in EH'. injection EH' as <-.
  rewrite (LOADS_then c' (m ++ h) t _ N' (LOADS_app _ _ _ _ _ _ LM LH) D).
  destruct (curves_main a s) as [C1 C2]. destruct (post_rest _ _ _ P) as [R1 R2].
  assert (Q : set_ns_version (ns_version s) (main22 a s) = set_patches [] (set_curves [] (set_ns_version (ns_version s) (main22 a s)))).
  { destruct (main22 a s). cbn in C1, C2. subst. reflexivity. }
  rewrite Q, post_splines, P'. reflexivity.
Qed.

Lemma back22 : forall c c' a s, nanospline c' = false -> consistent22 c' a s -> consistent22 c a (no_splines s) ->
  exists b s', save_msh c' s = (b, Ok tt) /\ load_msh c' b = Ok s' /\ load_msh c b = Ok s'.
Proof.
  intros c c' a s N' H' H. destruct (main22_loads c' a s H') as (b & E & L'). destruct (main22_loads c a _ H) as (b2 & E2 & L).
  change (then_ (no_splines s) wret) with (then_ s wret) in E2. rewrite E in E2. injection E2 as <-.
  destruct (main_post c' a s H') as (p' & P'). destruct (main_post c a _ H) as (p & P).
  change (main22 a (no_splines s)) with (main22 a s) in P, L.
  rewrite (post_agree _ _ _ _ _ P P') in P. exists b, p'. rewrite (save_off c' s N'). split; [exact E|].
  rewrite (LOADS_file c' b _ L'), (LOADS_file c b _ L). split; assumption.
Qed.

(** ** The bytes *)

Lemma longer : forall c c' s, nanospline c = true -> nanospline c' = false ->
  (snd (save_msh c' s) = Ok tt -> exists r, fst (save_msh c s) = fst (save_msh c' s) ++ str "$NanoSplineFormat" ++ r) /\
  (snd (save_msh c' s) <> Ok tt -> save_msh c s = save_msh c' s).
Proof.
  intros c c' s N N'. rewrite (save_on c s N), (save_off c' s N'), (then_split s (spline_part c s)).
  destruct (then_ s wret) as [b r]. cbn [fst snd]. split; intro R.
  - subst r. cbn [wseq fst snd]. unfold spline_part.
    set (w := (if 0 <? zlen (curves s) then save_curves c s else wret) +++ (if 0 <? zlen (patches s) then save_patches c s else wret)).
    exists (endl ++ (ns_version s ++ endl) ++ (str "$EndNanoSplineFormat" ++ endl) ++ fst w).
    destruct w as [y q]. cbn [wseq fst snd save_nanospline_format out]. rewrite <- !app_assoc. reflexivity.
  - destruct r as [[]|e|u| |]; try reflexivity. congruence.
Qed.
