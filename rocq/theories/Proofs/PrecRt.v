(** Round trips through streams with a higher precision, and what a lower one loses. *)

From Verif Require Import Model.Save Model.Precision Spec.Consistent Spec.Consistent22 Tests.Examples
  Proofs.BytesP Proofs.RtBase Proofs.DblP Proofs.DecP Proofs.ShowP Proofs.RtStep Proofs.Rt41A Proofs.Rt41 Proofs.Rt22
  Proofs.PrecP.

Ltac Zify.zify_post_hook ::= idtac.

(** ** Nothing is lost *)

Definition same : rounder := fun x => x.

Lemma reads_back_prec : forall p, 17 <= p -> reads_back (show_prec p) same.
Proof. intros p Hp x. apply reads_prec. exact Hp. Qed.

Lemma stays_same : stays_finite same.
Proof. intros x H. exact H. Qed.

Lemma via_same : forall a l, map (via a same) l = l.
Proof. intros a l. rewrite <- (map_id l) at 2. apply map_ext. intro x. unfold via. destruct a; reflexivity. Qed.

Lemma map_same : forall A (f : A -> A) l, (forall x, f x = x) -> map f l = l.
Proof. intros A f l H. rewrite <- (map_id l) at 2. apply map_ext. exact H. Qed.

Lemma nodes_same : forall a n, n_num_nodes n <> 0 -> nodes_via a same n = n.
Proof.
  intros a n H. unfold nodes_via. apply Z.eqb_neq in H. rewrite H. rewrite map_same; [destruct n; reflexivity|].
  intros []. unfold node_block_via. cbn. rewrite via_same. reflexivity.
Qed.

Lemma entities_same : forall a e, entities_via a same e = e.
Proof.
  intros a [p q r s].
  assert (E : forall l, map (entity_via a same) l = l) by (intro l; apply map_same; intros []; destruct a; reflexivity).
  unfold entities_via. cbn [points curves_e surfaces_e volumes_e]. rewrite !E, map_same; [reflexivity|].
  intros []; destruct a; reflexivity.
Qed.

Lemma data_same : forall l, map (data_via true same) l = l.
Proof.
  intro l. apply map_same. intros [[t r i] e]. unfold data_via. cbn [d_header d_entries string_tags real_tags int_tags].
  rewrite map_same by reflexivity. rewrite map_same; [reflexivity|].
  intros []. unfold entry_via. cbn. rewrite via_same. reflexivity.
Qed.

Lemma curves_same : forall a l, map (curve_via a same) l = l.
Proof. intros a l. apply map_same. intros []. unfold curve_via. cbn. rewrite via_same. reflexivity. Qed.

Lemma patches_same : forall a l, map (patch_via a same) l = l.
Proof. intros a l. apply map_same. intros []. unfold patch_via. cbn. rewrite via_same. reflexivity. Qed.

Theorem exact41 : forall p c s, 17 <= p -> consistent41 c true s ->
  exists b s', save_prec p c s = (b, Ok tt) /\ load_msh c b = Ok s' /\
    mesh_format s' = mesh_format s /\
    (n_num_nodes (nodes s) <> 0 -> nodes s' = nodes s) /\
    (e_num_elements (elements s) <> 0 -> elements s' = elements s) /\
    entities s' = entities s /\ physical_groups s' = physical_groups s /\
    node_data s' = node_data s /\ element_data s' = element_data s /\ element_node_data s' = element_node_data s /\
    (nanospline c = true -> ns_version s' = ns_version s /\ curves s' = curves s /\ patches s' = patches s).
Proof.
  intros p c s Hp H. destruct (@roundtrip41 (show_prec p) same (reads_back_prec p Hp) c true s H) as (b & E1 & E2).
  exists b. eexists. split; [exact E1|]. split; [exact E2|].
  cbn [via41 mesh_format nodes elements entities physical_groups node_data element_data element_node_data
    ns_version curves patches].
  split; [reflexivity|]. split; [apply nodes_same|]. split.
  { intro N. unfold elements_via. apply Z.eqb_neq in N. rewrite N. reflexivity. }
  split; [apply entities_same|]. split; [reflexivity|]. rewrite !data_same.
  split; [reflexivity|]. split; [reflexivity|]. split; [reflexivity|].
  intro N. rewrite N, curves_same, patches_same. split; [|split]; reflexivity.
Qed.

Theorem exact22 : forall p c s, 17 <= p -> consistent22 c true s ->
  exists b s', save_prec p c s = (b, Ok tt) /\ load_msh c b = Ok s' /\ kept22 c true (fun x => x) s s'.
Proof.
  intros p c s Hp H. exact (@roundtrip22 (show_prec p) same (reads_back_prec p Hp) stays_same c true s H).
Qed.

(** ** Fewer digits *)

(** 10^16 and the next double, 10^16 + 2. *)
Definition e16 : dbl := 4846369599423283200.
Definition e16n : dbl := 4846369599423283201.

Lemma exp_16 : forall u w, u = w * 2 ^ 1074 -> 10 ^ 16 <= w < 10 ^ 17 -> dec_exp u = 16.
Proof.
  intros u w -> Hw. apply dec_exp_unique.
  - assert (P : 0 < 2 ^ 1074) by reflexivity. unfold in_range.
    replace (2 ^ 2098) with (2 ^ 1024 * 2 ^ 1074) by reflexivity.
    assert (L : 10 ^ 17 < 2 ^ 1024) by reflexivity. assert (0 < 10 ^ 16) by reflexivity.
    revert P L Hw. generalize (2 ^ 1074) (2 ^ 1024). intros. nia.
  - lia.
  - unfold U, P400. assert (P : 0 < 2 ^ 1074) by reflexivity.
    replace (10 ^ (16 + 400)) with (10 ^ 16 * 10 ^ 400) by reflexivity.
    replace (10 ^ (16 + 1 + 400)) with (10 ^ 17 * 10 ^ 400) by reflexivity.
    assert (Q : 0 < 10 ^ 400) by reflexivity.
    revert P Q Hw. generalize (2 ^ 1074) (10 ^ 400) (10 ^ 16) (10 ^ 17). intros T R a b P Q Hw.
    assert (0 < T * R) by nia. split; nia.
Qed.

Lemma sci_e16 : forall n w, 1 <= n <= 16 -> w = 10 ^ 16 \/ w = 10 ^ 16 + 2 ->
  sci n (w * 2 ^ 1074) = (10 ^ (n - 1), 16).
Proof.
  intros n w Hn Hw. unfold sci.
  rewrite (exp_16 _ w eq_refl) by (destruct Hw as [-> | ->]; split; [discriminate|reflexivity|discriminate|reflexivity]).
  replace (Z.max 0 (- (16 - (n - 1)))) with 0 by lia.
  assert (E : rne_div (w * 2 ^ 1074 * 10 ^ 0) (2 ^ 1074 * 10 ^ (16 - (n - 1) + 0)) = 10 ^ (n - 1)).
  { rewrite Z.mul_1_r, Z.add_0_r, (Z.mul_comm w).
    assert (P : 10 <= 10 ^ (16 - (n - 1))) by (change 10 with (10 ^ 1) at 1; apply Z.pow_le_mono_r; lia).
    rewrite rne_div_scale by (try reflexivity; lia).
    apply rne_div_unique; [lia|]. rewrite <- Z.pow_add_r by lia.
    replace (n - 1 + (16 - (n - 1))) with 16 by lia. destruct Hw as [-> | ->]; lia. }
  rewrite E. replace (10 ^ (n - 1) =? 10 ^ n) with false; [reflexivity|].
  symmetry. apply Z.eqb_neq. intro Q. apply Z.pow_inj_r in Q; lia.
Qed.

Lemma units_e16 : mag_units (dmag e16) = 10 ^ 16 * 2 ^ 1074 /\ mag_units (dmag e16n) = (10 ^ 16 + 2) * 2 ^ 1074.
Proof. split; reflexivity. Qed.

(** They look the same with 16 digits or fewer. *)
Lemma shown_e16 : forall p, p <= 16 -> show_prec p e16n = show_prec p e16.
Proof.
  intros p Hp. unfold show_prec. change (dneg e16n) with false. change (dneg e16) with false. cbn [app].
  assert (Hn : 1 <= signif p <= 16).
  { unfold signif. destruct (p <? 0) eqn:E; [lia|]. apply Z.ltb_ge in E. destruct (p =? 0) eqn:E'; [lia|].
    apply Z.eqb_neq in E'. lia. }
  unfold show_magn. change (dmag e16n =? 0) with false. change (dmag e16 =? 0) with false.
  change (dmag e16n =? inf_mag) with false. change (dmag e16 =? inf_mag) with false.
  change (inf_mag <? dmag e16n) with false. change (inf_mag <? dmag e16) with false. cbv iota.
  destruct units_e16 as [-> ->]. rewrite !sci_e16 by auto. reflexivity.
Qed.

Definition one_node (x : dbl) : MshSpec :=
  {| mesh_format := {| version := str "4.1"; file_type := 0; data_size := 8 |};
     nodes := {| n_num_blocks := 1; n_num_nodes := 1; n_min := 1; n_max := 1;
                 n_blocks := [{| nb_dim := 0; nb_tag := 1; nb_parametric := 0; nb_num := 1; nb_tags := [1];
                                 nb_data := [x; 0; 0] |}] |};
     elements := e_default; entities := {| points := []; curves_e := []; surfaces_e := []; volumes_e := [] |};
     physical_groups := []; node_data := []; element_data := []; element_node_data := [];
     ns_version := str "1.0"; curves := []; patches := [] |}.

Lemma one_node_41 : forall x, x = e16 \/ x = e16n -> consistent41 c_release true (one_node x).
Proof.
  intros x Hx. split; [reflexivity|reflexivity|reflexivity| | |].
  - split; cbn [one_node physical_groups nodes elements node_data element_data element_node_data].
    + ex_ok.
    + ex_ok.
    + intros _. split; cbn [n_num_blocks n_blocks n_min n_max]; destruct Hx as [-> | ->]; ex_ok.
    + ex_ok.
    + intro H. exfalso. apply H. reflexivity.
    + constructor.
    + constructor.
    + constructor.
  - split; cbn; ex_ok.
  - intros _. split; cbn; ex_ok.
Qed.

Lemma one_node_text : forall (print : printer) x y, print x = print y ->
  @save_msh print c_release (one_node x) = @save_msh print c_release (one_node y).
Proof. intros print x y H. vm_compute. rewrite H. reflexivity. Qed.

Theorem needed : exists c s1 s2, consistent41 c true s1 /\ consistent41 c true s2 /\ nodes s1 <> nodes s2 /\
  forall p, p <= 16 -> save_prec p c s1 = save_prec p c s2.
Proof.
  exists c_release, (one_node e16n), (one_node e16). split; [apply one_node_41; auto|]. split; [apply one_node_41; auto|].
  split; [discriminate|]. intros p Hp. apply one_node_text, shown_e16, Hp.
Qed.

(** The largest double is rounded up beyond the largest double. *)
Definition biggest : dbl := 9218868437227405311.

Lemma one_node_biggest : consistent41 c_release true (one_node biggest).
Proof.
  split; [reflexivity|reflexivity|reflexivity| | |].
  - split; cbn [one_node physical_groups nodes elements node_data element_data element_node_data].
    + ex_ok.
    + ex_ok.
    + intros _. split; cbn [n_num_blocks n_blocks n_min n_max]; ex_ok.
    + ex_ok.
    + intro H. exfalso. apply H. reflexivity.
    + constructor.
    + constructor.
    + constructor.
  - split; cbn; ex_ok.
  - intros _. split; cbn; ex_ok.
Qed.

Definition biggest_text : bytes := str "1.797693134862316e+308".

Definition biggest_file : bytes :=
  str "$MeshFormat" ++ endl ++ str "4.1 0 8" ++ endl ++ str "$EndMeshFormat" ++ endl ++
  str "$Nodes" ++ endl ++ str "1 1 1 1" ++ endl ++ str "0 1 0 1" ++ endl ++ str "1" ++ endl ++
  biggest_text ++ str " 0 0" ++ endl ++ str "$EndNodes" ++ endl ++
  str "$NanoSplineFormat" ++ endl ++ str "1.0" ++ endl ++ str "$EndNanoSplineFormat" ++ endl.

Lemma biggest_shown : show_prec 16 biggest = biggest_text.
Proof. vm_compute. reflexivity. Qed.

Lemma biggest_saved : forall (print : printer) x, print 0 = str "0" -> print x = biggest_text ->
  @save_msh print c_release (one_node x) = (biggest_file, Ok tt).
Proof. intros print x H1 H2. vm_compute in H1, H2 |- *. rewrite H1, H2. reflexivity. Qed.

Lemma biggest_load : load_msh c_release biggest_file = Diverge.
Proof. vm_compute. reflexivity. Qed.

Theorem unreadable : exists c s b, consistent41 c true s /\ save_prec 16 c s = (b, Ok tt) /\ load_msh c b = Diverge.
Proof.
  exists c_release, (one_node biggest), biggest_file. split; [exact one_node_biggest|].
  split; [|exact biggest_load]. apply biggest_saved; [reflexivity|exact biggest_shown].
Qed.

Theorem number_exact : forall p x b, 17 <= p -> size_ok x -> finite x ->
  match b with c :: _ => is_ws c = true | [] => False end ->
  extract_double (show_prec p x ++ b) = (x, false, b).
Proof. intros p x b Hp Hx Hf Hb. apply reads_prec; [exact Hp|exact Hx|apply finite_is_finite; assumption|exact Hb]. Qed.
