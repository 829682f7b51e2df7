(** Cuts right after the line that names a section. *)

From Verif Require Import Model.Save Spec.Consistent Spec.Consistent22 Spec.Steps Spec.Hazards Proofs.BytesP Proofs.RtBase Proofs.WriteP Proofs.Fuel Proofs.Reach
  Proofs.ShowP Proofs.Rt41A Proofs.Rt41B Proofs.RtStep Proofs.Compose Proofs.Rt41 Proofs.Text22P Proofs.Rt22.

Ltac Zify.zify_post_hook ::= idtac.

(** A number is asked for where only blanks are left. *)
Lemma no_number : forall A (e : bytes -> A * bool * bytes) s, ws (rest s) -> fst (rd_num_opt e None s) = None.
Proof.
  intros A e s W. unfold rd_num_opt, sentry. destruct (good s); [|reflexivity].
  rewrite <- (app_nil_r (rest s)), skip_ws_app by exact W. reflexivity.
Qed.

Definition first_count (w : string) : Prop := In w ("$PhysicalNames" :: data_sections)%string.

Lemma count_missing : forall c w spec s, first_count w -> ws (rest s) -> dispatch c (str w) spec s = Undef Indeterminate.
Proof.
  intros c w spec s H W.
  assert (DH : load_data_header c s = Undef Indeterminate).
  { unfold load_data_header. unfold bind at 1. unfold op at 1. pose proof (no_number _ extract_size s W) as X.
    unfold rd_size_opt. destruct (rd_num_opt extract_size None s) as [o s1]. cbn [fst] in X. subst o. reflexivity. }
  assert (DD : forall v b e, load_data c v b e s = Undef Indeterminate).
  { intros. unfold load_data. unfold bind at 1. rewrite DH. reflexivity. }
  destruct H as [<-|[<-|[<-|[<-|[]]]]].
  - change (load_physical_groups c spec s = Undef Indeterminate). unfold load_physical_groups. unfold bind at 1. unfold op at 1.
    pose proof (no_number _ extract_int s W) as X. unfold rd_int_opt. destruct (rd_num_opt extract_int None s) as [o s1].
    cbn [fst] in X. subst o. reflexivity.
  - change (load_node_data c spec s = Undef Indeterminate). unfold load_node_data, bind. rewrite DD. reflexivity.
  - change (load_element_data c spec s = Undef Indeterminate). unfold load_element_data, bind. rewrite DD. reflexivity.
  - change (load_element_node_data c spec s = Undef Indeterminate). unfold load_element_node_data, bind. rewrite DD. reflexivity.
Qed.

Lemma take_token_name : forall n t, Forall (fun b => is_ws b = false) n -> ws t -> take_token (n ++ t) = (n, t).
Proof.
  intros n t H W. induction H as [|x n Hx H IH]; cbn [app take_token].
  - destruct W as [|y t Hy W]; [reflexivity|]. cbn [take_token]. rewrite Hy. reflexivity.
  - rewrite Hx, IH. reflexivity.
Qed.

Lemma name_token : forall n u t, n <> [] -> Forall (fun b => is_ws b = false) n -> ws u -> ws t ->
  exists s, rd_token [] (opened (u ++ n ++ t)) = (n, s) /\ rest s = t.
Proof.
  intros n u t N H U W. unfold rd_token, sentry. cbn [good opened eofb failb rest negb andb]. rewrite skip_ws_app by exact U.
  destruct n as [|x n]; [congruence|]. inversion H as [|? ? Hx Hn]; subst.
  assert (E : skip_ws ((x :: n) ++ t) = (x :: n) ++ t) by (cbn [app skip_ws]; rewrite Hx; reflexivity). rewrite E.
  cbn [app]. cbv iota. cbn [with_rest rest]. change (x :: n ++ t) with ((x :: n) ++ t).
  rewrite (take_token_name (x :: n) t H W). eexists. split; [reflexivity|]. unfold at_end. destruct t; reflexivity.
Qed.

Lemma marker_cut : forall c p spec w t, complete c p spec -> first_count w -> ws t ->
  load_msh c (p ++ str w ++ t) = Undef Indeterminate.
Proof.
  intros c p spec w t C H W.
  assert (N : str w <> [] /\ Forall (fun b => is_ws b = false) (str w) /\ is_section (str w) = true).
  { destruct H as [<-|[<-|[<-|[<-|[]]]]]; (split; [discriminate|split; [|reflexivity]]); repeat constructor. }
  destruct N as (N1 & N2 & N3).
  destruct (C (str w ++ t)) as (u & U & R). destruct (name_token (str w) u t N1 N2 U W) as (s & E & RS).
  apply (meets_fails c _ (str w) spec s).
  - exists (opened (u ++ str w ++ t)). split; [exact R|split; [reflexivity|exact E]].
  - exact N3.
  - rewrite count_missing; [reflexivity|exact H|rewrite RS; exact W].
Qed.

(** ** Saved files *)

Lemma wseq_assoc : forall a b d, (a +++ b) +++ d = a +++ b +++ d.
Proof.
  intros [x [[]|e|u| |]] [y [[]|e'|u'| |]] [z o]; cbn [wseq fst snd]; rewrite <- ?app_assoc; reflexivity.
Qed.

Lemma starts_cut : forall c w1 w2 spec b name t o, PIECE c w1 spec_default spec -> w1 +++ w2 = (b, Ok tt) -> w2 = (str name ++ t, o) -> first_count name ->
  exists p q, b = p ++ q /\ load_msh c p = Undef Indeterminate.
Proof.
  intros c w1 w2 spec b name t o (t1 & E1 & L1) E2 E3 N. subst w1 w2. cbn [wseq fst snd] in E2. injection E2 as <- _.
  exists (t1 ++ str name), t. split; [rewrite <- app_assoc; reflexivity|].
  rewrite <- (app_nil_r (str name)). eapply marker_cut; [apply LOADS_complete; exact L1|exact N|constructor].
Qed.

Lemma data_starts : forall name end_ s d ds rest, exists t o, save_data_sections name end_ s (d :: ds) +++ rest = ((str "$" ++ name) ++ t, o).
Proof.
  intros. unfold save_data_sections. cbn [wfor]. rewrite !wseq_assoc. match goal with |- exists t o, _ +++ ?w = _ => exists (endl ++ fst w), (snd w) end.
  cbn [wseq out fst snd]. rewrite <- !app_assoc. reflexivity.
Qed.

Definition annotated (s : MshSpec) : Prop :=
  physical_groups s <> [] \/ node_data s <> [] \/ element_data s <> [] \/ element_node_data s <> [].

(** What comes before the data sections, and the rest. *)
Lemma cut_from : forall c a v s w spec b, (v = v41s \/ v = v22s) -> fmt v a s -> fmt v a spec ->
  Forall (data_ok c a false) (node_data s) -> Forall (data_ok c a false) (element_data s) -> Forall (data_ok c a true) (element_node_data s) ->
  node_data spec = [] -> element_data spec = [] -> element_node_data spec = [] ->
  PIECE c w spec_default spec -> (exists rest, w +++
    (if 0 <? zlen (node_data s) then save_node_data s else wret) +++
    (if 0 <? zlen (element_data s) then save_element_data s else wret) +++
    (if 0 <? zlen (element_node_data s) then save_element_node_data s else wret) +++ rest = (b, Ok tt)) ->
  node_data s <> [] \/ element_data s <> [] \/ element_node_data s <> [] ->
  exists p q, b = p ++ q /\ load_msh c p = Undef Indeterminate.
Proof.
  intros c a v s w spec b V F F' K1 K2 K3 Z1 Z2 Z3 P (rest & E) A.
  assert (NZ : forall B (x : B) l, 0 <? zlen (x :: l) = true) by (intros; rewrite zlen_cons; apply Z.ltb_lt; pose proof (zlen_nonneg _ l); lia).
  destruct (node_data s) as [|d ds] eqn:ED.
  2:{ rewrite NZ in E. unfold save_node_data in E. rewrite ED in E.
      match type of E with _ +++ ?x +++ ?y = _ => destruct (data_starts (str "NodeData") false s d ds y) as (t & o & X) end.
      eapply (starts_cut c _ _ _ _ "$NodeData" t o P E); [exact X|right; left; reflexivity]. }
  destruct A as [A|A]; [congruence|]. change (0 <? zlen (@nil Data)) with false in E. cbv iota in E.
  destruct (element_data s) as [|d ds] eqn:ED2.
  2:{ rewrite NZ in E. unfold save_element_data in E. rewrite ED2 in E.
      assert (E' : w +++ save_data_sections (str "ElementData") false s (d :: ds) +++
        (if 0 <? zlen (element_node_data s) then save_element_node_data s else wret) +++ rest = (b, Ok tt)).
      { rewrite <- E. destruct w as [? [[]| | | |]]; reflexivity. }
      match type of E' with _ +++ ?x +++ ?y = _ => destruct (data_starts (str "ElementData") false s d ds y) as (t & o & X) end.
      eapply (starts_cut c _ _ _ _ "$ElementData" t o P E'); [exact X|right; right; left; reflexivity]. }
  destruct A as [A|A]; [congruence|]. change (0 <? zlen (@nil Data)) with false in E. cbv iota in E.
  destruct (element_node_data s) as [|d ds] eqn:ED3; [congruence|].
  rewrite NZ in E. unfold save_element_node_data in E. rewrite ED3 in E.
  assert (E' : w +++ save_data_sections (str "ElementNodeData") true s (d :: ds) +++ rest = (b, Ok tt)).
  { rewrite <- E. destruct w as [? [[]| | | |]]; reflexivity. }
  match type of E' with _ +++ ?x +++ ?y = _ => destruct (data_starts (str "ElementNodeData") true s d ds y) as (t & o & X) end.
  eapply (starts_cut c _ _ _ _ "$ElementNodeData" t o P E'); [exact X|right; right; right; left; reflexivity].
Qed.

Lemma groups_cut : forall c s rest b spec, PIECE c (save_mesh_format s) spec_default spec -> physical_groups s <> [] ->
  save_mesh_format s +++ (if 0 <? zlen (physical_groups s) then save_physical_groups s else wret) +++ rest = (b, Ok tt) ->
  exists p q, b = p ++ q /\ load_msh c p = Undef Indeterminate.
Proof.
  intros c s rest b spec P N E. destruct (physical_groups s) as [|g gs] eqn:EG; [congruence|].
  replace (0 <? zlen (g :: gs)) with true in E by (symmetry; rewrite zlen_cons; apply Z.ltb_lt; pose proof (zlen_nonneg _ gs); lia).
  unfold save_physical_groups in E. rewrite wseq_assoc in E.
  match type of E with _ +++ out ?x +++ ?y = _ =>
    eapply (starts_cut c _ _ _ _ "$PhysicalNames" (endl ++ fst y) (snd y) P E); [|left; reflexivity] end.
  cbn [wseq out fst snd]. rewrite <- app_assoc. reflexivity.
Qed.

Theorem cut_saved41 : forall c a s b, consistent41 c a s -> save_msh c s = (b, Ok tt) -> annotated s ->
  exists p q, b = p ++ q /\ load_msh c p = Undef Indeterminate.
Proof.
  intros c a s b [Hv Ht Hd [Kg Knn Kn Kne Ke Knd Ked Kend] Hen Hns] E A.
  assert (Ht' : file_type (mesh_format s) = ftype a) by exact Ht.
  assert (F : fmt41 a s) by (split; assumption).
  assert (P1 : PIECE c (save_mesh_format s) spec_default (set_format (mesh_format s) spec_default)).
  { apply format_PIECE; [left; exact Hv| |left; exact Hd]. rewrite Ht'. destruct a; auto. }
  unfold save_msh in E. destruct A as [A|A]; [eapply groups_cut; eassumption|].
  do 4 rewrite <- wseq_assoc in E.
  match type of E with ?w +++ _ = _ => assert (P : exists spec, PIECE c w spec_default spec /\ fmt41 a spec /\
    node_data spec = [] /\ element_data spec = [] /\ element_node_data spec = []) end.
  { eexists. split.
    - eapply PIECE_seq; [eapply PIECE_seq; [eapply PIECE_seq; [eapply PIECE_seq; [exact P1|apply groups_PIECE; [exact Kg|reflexivity]]
        |apply (entities_PIECE c a); auto]|apply (nodes_PIECE c a); auto]|apply (elements_PIECE c a); auto].
    - repeat split; assumption. }
  destruct P as (spec & P & FS & Z1 & Z2 & Z3).
  eapply (cut_from c a v41s s _ spec b (or_introl eq_refl) F FS Knd Ked Kend Z1 Z2 Z3 P); [eexists; exact E|exact A].
Qed.

Theorem cut_saved22 : forall c a s b, consistent22 c a s -> save_msh c s = (b, Ok tt) -> annotated s ->
  exists p q, b = p ++ q /\ load_msh c p = Undef Indeterminate.
Proof.
  intros c a s b [Hv Ht Hd Kg Knn Kn Kne Ke Kr Kw [M1 M2] Knd Ked Kend Hns] E A.
  assert (Ht' : file_type (mesh_format s) = ftype a) by exact Ht.
  assert (F : fmt v22s a s) by (split; assumption).
  assert (FB : fmt v22s a (base22 s)) by (split; assumption).
  destruct (nodes_step_rest a s (base22 s)) as (N1 & N2 & N3).
  pose proof (mid22_rest a s) as MR.
  pose proof (fmt_rest _ _ _ _ N1 FB) as FN. pose proof (fmt_rest _ _ _ _ MR FB) as FM.
  destruct MR as [_ _ (D1 & D2 & D3) (X1 & X2 & X3)].
  assert (P1 : PIECE c (save_mesh_format s) spec_default (set_format (mesh_format s) spec_default)).
  { apply format_PIECE; [right; exact Hv| |right; split; [exact Hv|exact Hd]]. rewrite Ht'. destruct a; auto. }
  unfold save_msh in E. destruct A as [A|A]; [eapply groups_cut; eassumption|].
  do 4 rewrite <- wseq_assoc in E.
  match type of E with ?w +++ _ = _ => assert (P : PIECE c w spec_default (mid22 a s)) end.
  { eapply PIECE_seq; [eapply PIECE_seq; [eapply PIECE_seq; [eapply PIECE_seq; [exact P1|apply groups_PIECE; [exact Kg|reflexivity]]
      |instantiate (1 := base22 s)]|apply (nodes_PIECE22 c a); auto]|apply (elements_PIECE22 c a); auto; rewrite N3; reflexivity].
    unfold save_entities. cbv zeta. rewrite (proj1 F). change (bytes_eqb v22s v22s) with true. cbv iota. destruct (negb _); apply PIECE_ret. }
  eapply (cut_from c a v22s s _ (mid22 a s) b (or_intror eq_refl) F FM Knd Ked Kend D1 D2 D3 P); [eexists; exact E|exact A].
Qed.
