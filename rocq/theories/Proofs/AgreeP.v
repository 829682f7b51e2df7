(** The text and the binary encoding of a spec. *)

From Verif Require Import Model.Save Spec.Consistent22 Spec.Rounding
  Proofs.RtBase Proofs.RtStep Proofs.Rt41A Proofs.Rt41B Proofs.Rt41 Proofs.PostP Proofs.ElemP Proofs.BytesP Proofs.ShowP
  Proofs.RoundP Proofs.Rt22 Proofs.Final Proofs.Final22 Proofs.ValidRt Proofs.ConvertP.
Ltac Zify.zify_post_hook ::= idtac.

(** ** Version 4.1 *)

Lemma map_via_true : forall r l, map (via true r) l = map r l.
Proof. reflexivity. Qed.

Lemma map_via_false : forall r l, map (via false r) l = l.
Proof. intros. unfold via. apply map_id. Qed.

Lemma node_block_false : forall r b, node_block_via false r b = b.
Proof. intros r []. unfold node_block_via. cbn. rewrite map_via_false. reflexivity. Qed.

Lemma curve_false : forall r k, curve_via false r k = k.
Proof. intros r []. unfold curve_via. cbn. rewrite map_via_false. reflexivity. Qed.

Lemma patch_false : forall r k, patch_via false r k = k.
Proof. intros r []. unfold patch_via. cbn. rewrite map_via_false. reflexivity. Qed.

Lemma map_same : forall A (f : A -> A) l, (forall x, f x = x) -> map f l = l.
Proof. intros A f l H. rewrite <- (map_id l) at 2. apply map_ext. exact H. Qed.

Lemma entities_false : forall r e, entities_via false r e = e.
Proof.
  intros r [p1 p2 p3 p4]. unfold entities_via. cbn [points curves_e surfaces_e volumes_e].
  rewrite !map_same; [reflexivity|intros []; reflexivity..].
Qed.

Lemma round_data_via : forall r d, (forall e, In e (d_entries d) -> 0 <= de_tag e < 2 ^ 31) ->
  data_via true r d = round_data r (data_via false r d).
Proof.
  intros r d H. unfold data_via, round_data. cbn [d_header d_entries]. f_equal. rewrite map_map. apply map_ext_in.
  intros e He. specialize (H e He). unfold entry_via. cbn [de_tag de_npe de_data].
  rewrite map_via_false. rewrite tag32_small by (unfold INT_MAX; lia). reflexivity.
Qed.

Lemma round_datas_via : forall r l, (forall d e, In d l -> In e (d_entries d) -> 0 <= de_tag e < 2 ^ 31) ->
  map (data_via true r) l = map (round_data r) (map (data_via false r) l).
Proof.
  intros r l H. rewrite map_map. apply map_ext_in. intros d Hd. apply round_data_via. intros e. apply H. exact Hd.
Qed.

Lemma small_data_parts : forall s, small_data s ->
  (forall d e, In d (node_data s) -> In e (d_entries d) -> 0 <= de_tag e < 2 ^ 31) /\
  (forall d e, In d (element_data s) -> In e (d_entries d) -> 0 <= de_tag e < 2 ^ 31) /\
  (forall d e, In d (element_node_data s) -> In e (d_entries d) -> 0 <= de_tag e < 2 ^ 31).
Proof.
  intros s H. repeat split; intros; eapply H; try eassumption; apply in_or_app; auto; right; apply in_or_app; auto.
Qed.

Lemma curves_round : forall r l, map (curve_via true r) l = map (curve_via true r) (map (curve_via false r) l).
Proof. intros. rewrite (map_same _ (curve_via false r)) by apply curve_false. reflexivity. Qed.

Lemma patches_round : forall r l, map (patch_via true r) l = map (patch_via true r) (map (patch_via false r) l).
Proof. intros. rewrite (map_same _ (patch_via false r)) by apply patch_false. reflexivity. Qed.

Lemma via41_agree : forall r ext s, small_data s ->
  via41 true r ext (as_type true s) = as_type true (round_spec r (via41 false r ext (as_type false s))).
Proof.
  intros r ext s H. destruct (small_data_parts s H) as (D1 & D2 & D3).
  unfold via41, as_type, round_spec, set_format.
  cbn [mesh_format nodes elements entities physical_groups node_data element_data element_node_data ns_version curves patches
       version file_type data_size].
  f_equal.
  - unfold nodes_via. destruct (n_num_nodes (nodes s) =? 0); [reflexivity|]. unfold round_nodes. cbn.
    rewrite (map_same _ (node_block_via false r)) by apply node_block_false. reflexivity.
  - rewrite entities_false. reflexivity.
  - apply round_datas_via. exact D1.
  - apply round_datas_via. exact D2.
  - apply round_datas_via. exact D3.
  - destruct ext; [apply curves_round|reflexivity].
  - destruct ext; [apply patches_round|reflexivity].
Qed.

(** ** Runs are determined by what they contain *)

Lemma runs_unique : forall A K I (key : A -> K) (items : A -> list I) l1 l2,
  Forall (fun x => items x <> []) l1 -> Forall (fun x => items x <> []) l2 ->
  neighbours_differ key l1 -> neighbours_differ key l2 ->
  (forall x y i, In x (l1 ++ l2) -> In y (l1 ++ l2) -> In i (items x) -> In i (items y) -> key x = key y) ->
  flat_map items l1 = flat_map items l2 ->
  Forall2 (fun x y => key x = key y /\ items x = items y) l1 l2.
Proof.
  intros A K I key items l1. induction l1 as [|x l1 IH]; intros l2 F1 F2 N1 N2 HK E.
  - destruct l2 as [|y l2]; [constructor|]. inversion F2 as [|? ? Y]; subst. cbn [flat_map] in E.
    destruct (items y); [congruence|discriminate].
  - inversion F1 as [|? ? X F1']; subst. destruct l2 as [|y l2].
    { cbn [flat_map] in E. destruct (items x); [congruence|discriminate]. }
    inversion F2 as [|? ? Y F2']; subst. cbn [flat_map] in E.
    assert (KE : key x = key y).
    { destruct (items x) as [|i ix] eqn:EX; [congruence|]. destruct (items y) as [|j jy] eqn:EY; [congruence|].
      injection E as E0 _. subst j. apply (HK x y i).
      - left. reflexivity.
      - apply in_or_app. right. left. reflexivity.
      - rewrite EX. left. reflexivity.
      - rewrite EY. left. reflexivity. }
    assert (S : items x = items y /\ flat_map items l1 = flat_map items l2).
    { destruct (app_eq_app _ _ _ _ E) as (d & [[D1 D2]|[D1 D2]]).
      - destruct d as [|j d]; [rewrite app_nil_r in D1; auto|]. exfalso.
        destruct l2 as [|y' l2]; [discriminate|]. inversion F2' as [|? ? Y' _]; subst. cbn [flat_map] in D2.
        destruct (items y') as [|j' jy'] eqn:EY'; [congruence|]. injection D2 as D3 _. subst j'.
        assert (Q : key x = key y').
        { apply (HK x y' j).
          - left. reflexivity.
          - apply in_or_app. right. right. left. reflexivity.
          - rewrite D1. apply in_or_app. right. left. reflexivity.
          - rewrite EY'. left. reflexivity. }
        destruct N2 as [N2 _]. congruence.
      - destruct d as [|j d]; [rewrite app_nil_r in D1; auto|]. exfalso.
        destruct l1 as [|x' l1]; [discriminate|]. inversion F1' as [|? ? X' _]; subst. cbn [flat_map] in D2.
        destruct (items x') as [|j' jx'] eqn:EX'; [congruence|]. injection D2 as D3 _. subst j'.
        assert (Q : key y = key x').
        { apply (HK y x' j).
          - apply in_or_app. right. left. reflexivity.
          - right. left. reflexivity.
          - rewrite D1. apply in_or_app. right. left. reflexivity.
          - rewrite EX'. left. reflexivity. }
        destruct N1 as [N1 _]. congruence. }
    destruct S as [S1 S2]. constructor; [auto|]. apply IH; try assumption.
    + destruct l1; [exact Logic.I|apply N1].
    + destruct l2; [exact Logic.I|apply N2].
    + intros x0 y0 i Hx Hy. apply HK; apply in_or_app; apply in_app_or in Hx; apply in_app_or in Hy;
        [destruct Hx; [left; right|right; right]|destruct Hy; [left; right|right; right]]; assumption.
Qed.

(** ** Blocks are determined by their key and contents *)

Lemma classified_fun : forall es t d1 d2, classified es t d1 -> classified es t d2 -> d1 = d2.
Proof.
  intros es t d1 d2 [(l & e & r & E & I1 & N & ->)|[N ->]] [(l' & e' & r' & E' & I' & N' & ->)|[N' ->]].
  - assert (X : e = e'); [|congruence]. rewrite E in E'. clear E.
    assert (IN : forall (u : element) v w, In u (v ++ u :: w)) by (intros; apply in_or_app; right; left; reflexivity).
    destruct (app_eq_app _ _ _ _ E') as (d & [[D1 D2]|[D1 D2]]).
    + destruct d as [|z d]; [cbn in D2; congruence|]. injection D2 as -> ->.
      destruct (N' e); [apply IN|exact I1].
    + destruct d as [|z d]; [cbn in D2; congruence|]. injection D2 as -> ->.
      destruct (N e'); [apply IN|exact I'].
  - destruct (N' e); [|exact I1]. rewrite E. apply in_or_app. right. left. reflexivity.
  - destruct (N e'); [|exact I']. rewrite E'. apply in_or_app. right. left. reflexivity.
  - reflexivity.
Qed.

Definition node_values (n : node) : list dbl := [n_x n; n_y n; n_z n].

Lemma nodes_of_values : forall ts d, zlen d = 3 * zlen ts -> flat_map node_values (nodes_of 3 ts d) = d.
Proof.
  intros ts. induction ts as [|t ts IH]; intros d L.
  - destruct d as [|y d]; [reflexivity|]. rewrite zlen_cons, zlen_nil in L. pose proof (zlen_nonneg _ d). lia.
  - rewrite zlen_cons in L. pose proof (zlen_nonneg _ ts) as P.
    destruct d as [|x0 [|x1 [|x2 d]]]; rewrite ?zlen_cons, ?zlen_nil in L; try lia.
    cbn [nodes_of nth skipn flat_map node_values n_x n_y n_z app]. rewrite IH by lia. reflexivity.
Qed.

(** A block of three doubles per node. *)
Definition plain (b : NodeBlock) : Prop :=
  nb_parametric b = 0 /\ nb_num b = zlen (nb_tags b) /\ zlen (nb_data b) = 3 * zlen (nb_tags b).

Lemma plain_22 : forall b, node_block_22 b -> plain b.
Proof. intros b [H1 _ _ H4 H5 _ _]. repeat split; [exact H1|exact H4|congruence]. Qed.

Lemma plain_via : forall a r b, plain b -> plain (node_block_via a r b).
Proof. intros a r b (H1 & H2 & H3). repeat split; [exact H1|exact H2|]. cbn. rewrite zlen_map. exact H3. Qed.

Lemma plain_nodes : forall b, plain b -> block_nodes b = nodes_of 3 (nb_tags b) (nb_data b).
Proof. intros b (H1 & _). unfold block_nodes, node_width. rewrite H1. reflexivity. Qed.

Lemma plain_eq : forall b1 b2, plain b1 -> plain b2 -> node_key b1 = node_key b2 -> block_nodes b1 = block_nodes b2 -> b1 = b2.
Proof.
  intros b1 b2 P1 P2 HK HN. rewrite (plain_nodes _ P1), (plain_nodes _ P2) in HN.
  destruct P1 as (A1 & A2 & A3), P2 as (B1 & B2 & B3).
  pose proof (f_equal (map n_tag) HN) as T. rewrite !nodes_of_tags in T.
  pose proof (f_equal (flat_map node_values) HN) as D. rewrite !nodes_of_values in D by assumption.
  destruct b1, b2. unfold node_key in HK. cbn in *. injection HK as -> ->. subst. reflexivity.
Qed.

Lemma element_block_eq : forall b1 b2, element_block_22 b1 -> element_block_22 b2 ->
  element_key b1 = element_key b2 -> block_elements b1 = block_elements b2 -> b1 = b2.
Proof.
  intros b1 b2 H1 H2 HK HE. pose proof (block_words b1 H1) as W1. pose proof (block_words b2 H2) as W2.
  rewrite HE in W1. rewrite <- W2 in W1. pose proof (f_equal (fun l => zlen l) HE) as L.
  destruct H1 as [_ _ [P1 _] (n1 & G1 & _) _], H2 as [_ _ [P2 _] (n2 & G2 & _) _].
  unfold block_elements in L. rewrite G1, G2, !zlen_map in L. unfold zlen in L. rewrite !cut_length in L.
  destruct b1, b2. unfold element_key in HK. cbn in *. injection HK as -> -> ->. subst.
  f_equal. lia.
Qed.

Lemma element_block_key : forall b e, In e (block_elements b) -> element_key b = (el_dim e, el_ent e, el_type e).
Proof.
  intros b e H. unfold block_elements in H. destruct (gmsh_nodes (eb_type b)); [|destruct H].
  apply in_map_iff in H. destruct H as (r & <- & _). reflexivity.
Qed.

Lemma forall2_eq : forall A (l1 l2 : list A), Forall2 eq l1 l2 -> l1 = l2.
Proof. intros A l1 l2 H. induction H; congruence. Qed.

Lemma forall2_in : forall A B (P Q : A -> B -> Prop) l1 l2, (forall x y, In x l1 -> In y l2 -> P x y -> Q x y) ->
  Forall2 P l1 l2 -> Forall2 Q l1 l2.
Proof.
  intros A B P Q l1 l2 H F. induction F as [|x y l1 l2 HP F IH]; constructor.
  - apply H; [left; reflexivity|left; reflexivity|exact HP].
  - apply IH. intros. apply H; [right; assumption|right; assumption|assumption].
Qed.

Lemma node_blocks_unique : forall es l1 l2, Forall plain l1 -> Forall plain l2 ->
  Forall (fun b => nb_tags b <> []) l1 -> Forall (fun b => nb_tags b <> []) l2 ->
  neighbours_differ node_key l1 -> neighbours_differ node_key l2 ->
  (forall b t, In b (l1 ++ l2) -> In t (nb_tags b) -> classified es t (node_key b)) ->
  flat_map block_nodes l1 = flat_map block_nodes l2 -> l1 = l2.
Proof.
  intros es l1 l2 P1 P2 F1 F2 N1 N2 C E.
  assert (TI : forall b n, In n (block_nodes b) -> In (n_tag n) (nb_tags b)).
  { intros b n H. unfold block_nodes in H. apply (in_map n_tag) in H. rewrite nodes_of_tags in H. exact H. }
  assert (NE : forall b, nb_tags b <> [] -> block_nodes b <> []).
  { intros b H X. unfold block_nodes in X. apply (f_equal (map n_tag)) in X. rewrite nodes_of_tags in X. exact (H X). }
  assert (U : Forall2 (fun x y => node_key x = node_key y /\ block_nodes x = block_nodes y) l1 l2).
  { apply runs_unique; try assumption.
    - eapply Forall_impl; [|exact F1]. exact NE.
    - eapply Forall_impl; [|exact F2]. exact NE.
    - intros x y i Hx Hy Ix Iy. apply (classified_fun es (n_tag i)); apply C; auto. }
  apply forall2_eq. eapply forall2_in; [|exact U]. cbn beta. intros x y Hx Hy [H1 H2].
  rewrite Forall_forall in P1, P2. apply plain_eq; auto.
Qed.

Lemma element_blocks_unique : forall l1 l2, Forall element_block_22 l1 -> Forall element_block_22 l2 ->
  Forall (fun b => 0 < eb_num b) l1 -> Forall (fun b => 0 < eb_num b) l2 ->
  neighbours_differ element_key l1 -> neighbours_differ element_key l2 ->
  flat_map block_elements l1 = flat_map block_elements l2 -> l1 = l2.
Proof.
  intros l1 l2 P1 P2 F1 F2 N1 N2 E. rewrite Forall_forall in *.
  assert (U : Forall2 (fun x y => element_key x = element_key y /\ block_elements x = block_elements y) l1 l2).
  { apply runs_unique; try assumption.
    - apply Forall_forall. intros b Hb. apply block_elements_full; auto.
    - apply Forall_forall. intros b Hb. apply block_elements_full; auto.
    - intros x y i Hx Hy Ix Iy. rewrite (element_block_key _ _ Ix), (element_block_key _ _ Iy). reflexivity. }
  apply forall2_eq. eapply forall2_in; [|exact U]. cbn beta. intros x y Hx Hy [H1 H2]. apply element_block_eq; auto.
Qed.

(** ** Version 2.2 *)

Lemma neighbours_map : forall A B K (key : A -> K) (key' : B -> K) (f : A -> B) l,
  (forall x, key' (f x) = key x) -> neighbours_differ key l -> neighbours_differ key' (map f l).
Proof.
  intros A B K key key' f l H. induction l as [|x l IH]; intro N; [exact Logic.I|].
  destruct l as [|y l]; [exact Logic.I|]. cbn [map] in *. destruct N as [N1 N2]. split; [|apply IH; exact N2].
  rewrite !H. exact N1.
Qed.

Lemma round_nodes_22 : forall r s, small_tags s -> nodes_22 true r s = map (node_round true r) (nodes_22 false r s).
Proof.
  intros r s H. rewrite !small_nodes_22 by exact H. rewrite map_map. apply map_ext. intros []. reflexivity.
Qed.

Lemma nodes_agree : forall c r s s1 s2, small_tags s -> kept22 c true r (as_type true s) s1 ->
  kept22 c false r (as_type false s) s2 -> nodes s1 = round_nodes r (nodes s2).
Proof.
  intros c r s s1 s2 ST K1 K2. pose proof (round_nodes_22 r s ST) as RN.
  assert (B : n_blocks (nodes s1) = map (node_block_via true r) (n_blocks (nodes s2))).
  { pose proof (k22_node_blocks _ _ _ _ _ K1) as P1. pose proof (k22_node_blocks _ _ _ _ _ K2) as P2.
    apply (node_blocks_unique (elements_22 s)).
    - eapply Forall_impl; [|exact P1]. exact plain_22.
    - apply Forall_map. eapply Forall_impl; [|exact P2]. intros b Hb. apply plain_via, plain_22, Hb.
    - exact (k22_node_full _ _ _ _ _ K1).
    - apply Forall_map. exact (k22_node_full _ _ _ _ _ K2).
    - exact (k22_node_runs _ _ _ _ _ K1).
    - apply (neighbours_map _ _ _ node_key); [reflexivity|]. exact (k22_node_runs _ _ _ _ _ K2).
    - intros b t Hb Ht. apply in_app_or in Hb. destruct Hb as [Hb|Hb].
      + exact (k22_class _ _ _ _ _ K1 b t Hb Ht).
      + apply in_map_iff in Hb. destruct Hb as (b' & <- & Hb). exact (k22_class _ _ _ _ _ K2 b' t Hb Ht).
    - pose proof (k22_nodes _ _ _ _ _ K1) as E1. pose proof (k22_nodes _ _ _ _ _ K2) as E2.
      unfold mesh_nodes in E1, E2. rewrite E1.
      change (nodes_22 true r (as_type true s)) with (nodes_22 true r s). rewrite RN.
      change (nodes_22 false r s) with (nodes_22 false r (as_type false s)). rewrite <- E2.
      clear E1 E2 RN. induction P2 as [|b l Hb P2 IH]; [reflexivity|]. cbn [flat_map map]. rewrite map_app, IH. f_equal.
      apply plain_22 in Hb. rewrite (plain_nodes _ Hb), (plain_nodes _ (plain_via true r b Hb)).
      cbn [node_block_via nb_tags nb_data]. symmetry. apply nodes_of_via. apply Hb. }
  pose proof (k22_num_nodes _ _ _ _ _ K1) as M1. pose proof (k22_num_nodes _ _ _ _ _ K2) as M2.
  pose proof (k22_node_num _ _ _ _ _ K1) as L1. pose proof (k22_node_num _ _ _ _ _ K2) as L2.
  assert (R : n_min (nodes s1) = n_min (nodes s2) /\ n_max (nodes s1) = n_max (nodes s2)).
  { pose proof (k22_min _ _ _ _ _ K1) as Q1. pose proof (k22_min _ _ _ _ _ K2) as Q2.
    pose proof (k22_no_nodes _ _ _ _ _ K1) as D1. pose proof (k22_no_nodes _ _ _ _ _ K2) as D2.
    change (nodes_22 true r (as_type true s)) with (nodes_22 true r s) in *.
    change (nodes_22 false r (as_type false s)) with (nodes_22 false r s) in *. rewrite RN in *.
    destruct (nodes_22 false r s) as [|x l] eqn:E.
    - rewrite D1, D2 by reflexivity. auto.
    - rewrite <- E in *. assert (NE : nodes_22 false r s <> []) by congruence.
      destruct Q1 as ((n1 & I1 & T1) & (n2 & I2 & T2) & U1); [rewrite E; discriminate|].
      destruct Q2 as ((m1 & J1 & V1) & (m2 & J2 & V2) & U2); [exact NE|].
      apply in_map_iff in I1. destruct I1 as (n1' & <- & I1). apply in_map_iff in I2. destruct I2 as (n2' & <- & I2).
      cbn [node_round n_tag] in T1, T2. pose proof (U2 _ I1). pose proof (U2 _ I2).
      pose proof (U1 _ (in_map (node_round true r) _ _ J1)) as X1. pose proof (U1 _ (in_map (node_round true r) _ _ J2)) as X2.
      cbn [node_round n_tag] in X1, X2. lia. }
  unfold round_nodes. rewrite B, zlen_map, <- L2 in L1. destruct (nodes s1) as [q1 q2 q3 q4 q5], (nodes s2) as [p1 p2 p3 p4 p5].
  cbn in *. destruct R. congruence.
Qed.

Lemma elements_agree : forall c r s s1 s2, small_tags s -> kept22 c true r (as_type true s) s1 ->
  kept22 c false r (as_type false s) s2 -> elements s1 = elements s2.
Proof.
  intros c r s s1 s2 ST K1 K2.
  assert (B : e_blocks (elements s1) = e_blocks (elements s2)).
  { apply element_blocks_unique.
    - exact (k22_element_blocks _ _ _ _ _ K1).
    - exact (k22_element_blocks _ _ _ _ _ K2).
    - exact (k22_element_full _ _ _ _ _ K1).
    - exact (k22_element_full _ _ _ _ _ K2).
    - exact (k22_element_runs _ _ _ _ _ K1).
    - exact (k22_element_runs _ _ _ _ _ K2).
    - pose proof (k22_elements _ _ _ _ _ K1) as E1. pose proof (k22_elements _ _ _ _ _ K2) as E2.
      unfold mesh_elements in E1, E2. rewrite E1, E2. reflexivity. }
  pose proof (k22_num_elements _ _ _ _ _ K1) as M1. pose proof (k22_num_elements _ _ _ _ _ K2) as M2.
  pose proof (k22_element_num _ _ _ _ _ K1) as L1. pose proof (k22_element_num _ _ _ _ _ K2) as L2.
  assert (R : e_min (elements s1) = e_min (elements s2) /\ e_max (elements s1) = e_max (elements s2)).
  { pose proof (k22_element_min _ _ _ _ _ K1) as Q1. pose proof (k22_element_min _ _ _ _ _ K2) as Q2.
    pose proof (k22_no_elements _ _ _ _ _ K1) as D1. pose proof (k22_no_elements _ _ _ _ _ K2) as D2.
    change (elements_22 (as_type true s)) with (elements_22 s) in *.
    change (elements_22 (as_type false s)) with (elements_22 s) in *.
    assert (SM : Forall (fun e => 0 <= el_tag e <= INT_MAX) (elements_22 s)).
    { rewrite small_elements_22 by exact ST. apply Forall_map. eapply Forall_impl; [|exact (proj2 ST)].
      intros e [H _]. cbn [with_type_dim el_tag]. unfold INT_MAX. lia. }
    destruct (elements_22 s) as [|x l] eqn:E.
    - rewrite D1, D2 by reflexivity. auto.
    - rewrite <- E in *. assert (NE : elements_22 s <> []) by congruence.
      destruct (Q1 NE SM) as ((n1 & I1 & T1) & (n2 & I2 & T2) & U1).
      destruct (Q2 NE SM) as ((m1 & J1 & V1) & (m2 & J2 & V2) & U2).
      pose proof (U2 _ I1). pose proof (U2 _ I2). pose proof (U1 _ J1). pose proof (U1 _ J2). lia. }
  rewrite B, <- L2 in L1. destruct (elements s1) as [q1 q2 q3 q4 q5], (elements s2) as [p1 p2 p3 p4 p5].
  cbn in *. destruct R. congruence.
Qed.

Lemma kept22_agree : forall c r s s1 s2, small_tags s -> small_data s -> kept22 c true r (as_type true s) s1 ->
  kept22 c false r (as_type false s) s2 -> s1 = as_type true (round_spec r s2).
Proof.
  intros c r s s1 s2 ST SD K1 K2. pose proof (nodes_agree c r s s1 s2 ST K1 K2) as N.
  pose proof (elements_agree c r s s1 s2 ST K1 K2) as E.
  pose proof (k22_format _ _ _ _ _ K1) as F1. pose proof (k22_format _ _ _ _ _ K2) as F2.
  pose proof (k22_groups _ _ _ _ _ K1) as G1. pose proof (k22_groups _ _ _ _ _ K2) as G2.
  pose proof (k22_entities _ _ _ _ _ K1) as T1. pose proof (k22_entities _ _ _ _ _ K2) as T2.
  destruct (k22_data _ _ _ _ _ K1) as (A1 & A2 & A3). destruct (k22_data _ _ _ _ _ K2) as (B1 & B2 & B3).
  pose proof (k22_splines _ _ _ _ _ K1) as S1. pose proof (k22_splines _ _ _ _ _ K2) as S2.
  destruct (small_data_parts s SD) as (D1 & D2 & D3).
  cbn [as_type set_format mesh_format physical_groups node_data element_data element_node_data ns_version curves patches
       version file_type data_size] in *.
  rewrite (round_datas_via r _ D1), <- B1 in A1. rewrite (round_datas_via r _ D2), <- B2 in A2.
  rewrite (round_datas_via r _ D3), <- B3 in A3.
  assert (S : (ns_version s1, curves s1, patches s1) =
    (ns_version s2, map (curve_via true r) (curves s2), map (patch_via true r) (patches s2))).
  { destruct (nanospline c); injection S1 as -> -> ->; injection S2 as -> -> ->; [|reflexivity].
    rewrite curves_round, patches_round. reflexivity. }
  injection S as V1 V2 V3. unfold as_type, round_spec, set_format. cbn.
  rewrite F2, G2, T2, <- N, <- E, <- A1, <- A2, <- A3, <- V1, <- V2, <- V3, <- G1.
  destruct s1 as [q1 q2 q3 q4 q5 q6 q7 q8 q9 q10 q11]. cbn in *. rewrite F1, T1. reflexivity.
Qed.

Lemma agree41 : forall c s, consistent41 c true (as_type true s) -> consistent41 c false (as_type false s) -> small_data s ->
  exists b1 s1 b2 s2, save_msh c (as_type true s) = (b1, Ok tt) /\ load_msh c b1 = Ok s1 /\
    save_msh c (as_type false s) = (b2, Ok tt) /\ load_msh c b2 = Ok s2 /\ s1 = as_type true (round_spec r6 s2).
Proof.
  intros c s H1 H2 D. destruct (roundtrip41 c true _ H1) as (b1 & E1 & E2). destruct (roundtrip41 c false _ H2) as (b2 & E3 & E4).
  exists b1. eexists. exists b2. eexists. repeat (split; [eassumption|]). apply via41_agree. exact D.
Qed.

Lemma agree22 : forall c s, consistent22 c true (as_type true s) -> consistent22 c false (as_type false s) ->
  small_tags s -> small_data s ->
  exists b1 s1 b2 s2, save_msh c (as_type true s) = (b1, Ok tt) /\ load_msh c b1 = Ok s1 /\
    save_msh c (as_type false s) = (b2, Ok tt) /\ load_msh c b2 = Ok s2 /\ s1 = as_type true (round_spec r6 s2).
Proof.
  intros c s H1 H2 ST D. destruct (roundtrip22 c true _ H1) as (b1 & s1 & E1 & E2 & K1).
  destruct (roundtrip22 c false _ H2) as (b2 & s2 & E3 & E4 & K2).
  exists b1, s1, b2, s2. repeat (split; [assumption|]). eapply kept22_agree; eassumption.
Qed.
