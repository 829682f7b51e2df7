(** 2.2 files with the same contents load as the same mesh. *)

From Verif Require Import Model.LoadMsh Spec.Any22 Spec.Same22 Proofs.BytesP Proofs.PostP Proofs.AgreeP Proofs.Any22P Proofs.RewriteP Proofs.DistinctP.

Ltac Zify.zify_post_hook ::= idtac.

(** ** Increasing lists are determined by their members *)

Lemma increasing_tail : forall x l, increasing (x :: l) -> increasing l /\ forall y, In y l -> x < y.
Proof.
  intros x l. revert x. induction l as [|y l IH]; intros x H; [split; [exact I|intros y []]|].
  destruct H as [H1 H2]. split; [exact H2|]. intros z [<-|Hz]; [exact H1|].
  specialize (proj2 (IH y H2) z Hz). lia.
Qed.

Lemma increasing_unique : forall l l', increasing l -> increasing l' -> (forall x, In x l <-> In x l') -> l = l'.
Proof.
  induction l as [|x l IH]; intros [|y l'] H H' E.
  - reflexivity.
  - destruct (proj2 (E y) (or_introl eq_refl)).
  - destruct (proj1 (E x) (or_introl eq_refl)).
  - destruct (increasing_tail _ _ H) as [I1 L1]. destruct (increasing_tail _ _ H') as [I2 L2].
    assert (x = y).
    { destruct (proj1 (E x) (or_introl eq_refl)) as [->|A]; [reflexivity|].
      destruct (proj2 (E y) (or_introl eq_refl)) as [->|B]; [reflexivity|].
      specialize (L1 _ B). specialize (L2 _ A). lia. }
    subst y. f_equal. apply IH; [exact I1|exact I2|]. intro z. split; intro Hz.
    + destruct (proj1 (E z) (or_intror Hz)) as [->|A]; [specialize (L1 _ Hz); lia|exact A].
    + destruct (proj2 (E z) (or_intror Hz)) as [->|A]; [specialize (L2 _ Hz); lia|exact A].
Qed.

Lemma assoc_unique : forall (l l' : list (Z * list Z)), map fst l = map fst l' -> increasing (map fst l) ->
  (forall t a b, In (t, a) l -> In (t, b) l' -> a = b) -> l = l'.
Proof.
  induction l as [|[t a] l IH]; intros [|[t' b] l'] E S H; try discriminate; [reflexivity|].
  cbn [map fst] in *. injection E as -> E. f_equal.
  - f_equal. apply (H t'); left; reflexivity.
  - apply IH; [exact E|exact (proj1 (increasing_tail _ _ S))|]. intros t x y Hx Hy. apply (H t); right; assumption.
Qed.

Lemma assoc_fun : forall (l : list (Z * list Z)) t a b, increasing (map fst l) -> In (t, a) l -> In (t, b) l -> a = b.
Proof.
  induction l as [|[u x] l IH]; intros t a b S Ha Hb; [destruct Ha|]. cbn [map fst] in S.
  destruct (increasing_tail _ _ S) as [S' L].
  assert (N : forall z, In (u, z) l -> False).
  { intros z Hz. apply (in_map fst) in Hz. specialize (L _ Hz). cbn [fst] in L. lia. }
  destruct Ha as [Ha|Ha], Hb as [Hb|Hb].
  - congruence.
  - injection Ha as -> _. destruct (N _ Hb).
  - injection Hb as -> _. destruct (N _ Ha).
  - eapply IH; eassumption.
Qed.

Lemma table_unique : forall recs d l l', entity_table recs d l -> entity_table recs d l' -> l = l'.
Proof.
  intros recs d l l' [A1 A2 A3] [B1 B2 B3]. 
  assert (F : map fst l = map fst l').
  { apply increasing_unique; [exact A1|exact B1|].
    assert (G : forall l l', (forall t ps, In (t, ps) l -> increasing ps /\ ps <> []) ->
              (forall t p, (exists ps, In (t, ps) l /\ In p ps) <-> tagged recs d t p) ->
              (forall t p, (exists ps, In (t, ps) l' /\ In p ps) <-> tagged recs d t p) ->
              forall t, In t (map fst l) -> In t (map fst l')).
    { clear. intros l l' H2 H3 H4 t Ht. apply in_map_iff in Ht. destruct Ht as ([u ps] & <- & H). cbn [fst].
      destruct (H2 _ _ H) as [_ NE]. destruct ps as [|p ps]; [congruence|].
      destruct (proj2 (H4 u p)) as (qs & Hq & _).
      - apply (H3 u p). exists (p :: ps). split; [exact H|left; reflexivity].
      - apply (in_map fst) in Hq. exact Hq. }
    intro t. split; apply G; assumption. }
  apply assoc_unique; [exact F|exact A1|]. intros t a b Ha Hb.
  apply increasing_unique; [apply (A2 _ _ Ha)|apply (B2 _ _ Hb)|]. intro p. split; intro Hp.
  - destruct (proj2 (B3 t p)) as (qs & Hq & Hp').
    + apply (A3 t p). exists a. split; assumption.
    + rewrite (assoc_fun _ _ _ _ B1 Hb Hq). exact Hp'.
  - destruct (proj2 (A3 t p)) as (qs & Hq & Hp').
    + apply (B3 t p). exists b. split; assumption.
    + rewrite (assoc_fun _ _ _ _ A1 Ha Hq). exact Hp'.
Qed.

(** ** Entities *)

Lemma added_unique : forall recs en e1 e2, entities_added recs en e1 -> entities_added recs en e2 -> e1 = e2.
Proof.
  intros recs en e1 e2 (a0 & a1 & a2 & a3 & A0 & A1 & A2 & A3 & P0 & P1 & P2 & P3)
    (b0 & b1 & b2 & b3 & B0 & B1 & B2 & B3 & Q0 & Q1 & Q2 & Q3).
  rewrite (table_unique _ _ _ _ A0 B0) in P0. rewrite (table_unique _ _ _ _ A1 B1) in P1.
  rewrite (table_unique _ _ _ _ A2 B2) in P2. rewrite (table_unique _ _ _ _ A3 B3) in P3.
  destruct e1 as [w0 w1 w2 w3], e2 as [v0 v1 v2 v3]. cbn [points curves_e surfaces_e volumes_e] in *. congruence.
Qed.

Lemma table_nil : forall d, entity_table [] d [].
Proof.
  intro d. split; [exact I|intros t ps []|]. intros t p. split; [intros (ps & [] & _)|intros (r & l & [] & _)].
Qed.

Lemma added_nil : forall en e1, entities_added [] en e1 -> e1 = en.
Proof.
  intros en e1 H. apply (added_unique [] en); [exact H|]. exists [], [], [], [].
  do 4 (split; [apply table_nil|]). cbn [map]. rewrite !app_nil_r. repeat split.
Qed.

Inductive entities_through : list (list el_rec) -> Entities -> Entities -> Prop :=
| et_nil en : entities_through [] en en
| et_cons l ls en en1 en' : entities_added l en en1 -> entities_through ls en1 en' -> entities_through (l :: ls) en en'.

Lemma from_through : forall ps en en', entities_from ps en en' -> entities_through (element_sections ps) en en'.
Proof.
  intros ps en en' H. induction H as [en|l ps en en' H IH|l ps en en1 en' A H IH]; [constructor|exact IH|].
  destruct l as [|r l]; [|econstructor; [exact A|exact IH]]. rewrite (added_nil _ _ A) in IH. exact IH.
Qed.

Lemma through_unique : forall ls en e1 e2, entities_through ls en e1 -> entities_through ls en e2 -> e1 = e2.
Proof.
  induction ls as [|l ls IH]; intros en e1 e2 H1 H2; inversion H1 as [|x1 x2 x3 x4 x5 A1 T1]; inversion H2 as [|y1 y2 y3 y4 y5 A2 T2]; subst.
  - reflexivity.
  - rewrite (added_unique _ _ _ _ A1 A2) in T1. eapply IH; eassumption.
Qed.

Lemma carried_point : forall l t p, (exists x, In x (map point_of l) /\ pe_tag x = t /\ In p (pe_phys x)) <->
  exists ps, In (t, ps) l /\ In p ps.
Proof.
  intros l t p. split.
  - intros (x & Hx & <- & Hp). apply in_map_iff in Hx. destruct Hx as ([u ps] & <- & H). exists ps. split; assumption.
  - intros (ps & H & Hp). exists (point_of (t, ps)). split; [apply in_map; exact H|]. split; [reflexivity|exact Hp].
Qed.
Lemma carried_entity : forall l t p, (exists x, In x (map entity_of l) /\ en_tag x = t /\ In p (en_phys x)) <->
  exists ps, In (t, ps) l /\ In p ps.
Proof.
  intros l t p. split.
  - intros (x & Hx & <- & Hp). apply in_map_iff in Hx. destruct Hx as ([u ps] & <- & H). exists ps. split; assumption.
  - intros (ps & H & Hp). exists (entity_of (t, ps)). split; [apply in_map; exact H|]. split; [reflexivity|exact Hp].
Qed.

Lemma exists_app : forall A (P : A -> Prop) l l', (exists x, In x (l ++ l') /\ P x) <-> (exists x, In x l /\ P x) \/ (exists x, In x l' /\ P x).
Proof.
  intros A P l l'. split.
  - intros (x & Hx & HP). apply in_app_or in Hx. destruct Hx; [left|right]; exists x; auto.
  - intros [(x & Hx & HP)|(x & Hx & HP)]; exists x; (split; [apply in_or_app; auto|exact HP]).
Qed.

Definition solid (d : Z) : Prop := d = 0 \/ d = 1 \/ d = 2 \/ d = 3.

Lemma carried_added : forall recs en en' d t p, entities_added recs en en' ->
  carried en' d t p <-> carried en d t p \/ (solid d /\ tagged recs d t p).
Proof.
  intros recs en en' d t p (l0 & l1 & l2 & l3 & T0 & T1 & T2 & T3 & E0 & E1 & E2 & E3).
  unfold carried. rewrite E0, E1, E2, E3.
  rewrite (exists_app _ (fun x => pe_tag x = t /\ In p (pe_phys x))), !(exists_app _ (fun x => en_tag x = t /\ In p (en_phys x))).
  rewrite carried_point, !carried_entity, (et_iff _ _ _ T0 t p), (et_iff _ _ _ T1 t p), (et_iff _ _ _ T2 t p), (et_iff _ _ _ T3 t p).
  unfold solid. split.
  - intros [[-> H]|[[-> H]|[[-> H]|[-> H]]]]; intuition.
  - intros [H|[[->|[->|[->| ->]]] H]]; intuition.
Qed.

Lemma tagged_app : forall l l' d t p, tagged (l ++ l') d t p <-> tagged l d t p \/ tagged l' d t p.
Proof.
  intros l l' d t p. unfold tagged. split.
  - intros (r & k & Hr & H). apply in_app_or in Hr. destruct Hr; [left|right]; exists r, k; auto.
  - intros [(r & k & Hr & H)|(r & k & Hr & H)]; exists r, k; (split; [apply in_or_app; auto|exact H]).
Qed.

Lemma carried_from : forall ps en en' d t p, entities_from ps en en' ->
  carried en' d t p <-> carried en d t p \/ (solid d /\ tagged (all_recs ps) d t p).
Proof.
  intros ps en en' d t p H. induction H as [en|l ps en en' H IH|l ps en en1 en' A H IH].
  - split; [left; assumption|]. intros [H|[_ (r & k & [] & _)]]. exact H.
  - cbn [all_recs flat_map part_recs app]. exact IH.
  - cbn [all_recs flat_map part_recs]. fold (all_recs ps). rewrite IH, (carried_added _ _ _ _ _ _ A), tagged_app. tauto.
Qed.

(** ** Meshes *)

Lemma last_known : forall A (pick : sec -> option A) ps d, (forall n, pick (SOther n) = None) -> last_of pick (known ps) d = last_of pick ps d.
Proof.
  intros A pick ps. induction ps as [|p ps IH]; intros d H; [reflexivity|]. unfold known. cbn [filter]. fold (known ps).
  destruct p; cbn [last_of]; rewrite ?H; apply IH; exact H.
Qed.
Lemma all_known : forall A (pick : sec -> option A) ps, (forall n, pick (SOther n) = None) -> all_of pick (known ps) = all_of pick ps.
Proof.
  intros A pick ps H. unfold all_of. induction ps as [|p ps IH]; [reflexivity|]. unfold known. cbn [filter]. fold (known ps).
  destruct p; cbn [flat_map]; rewrite ?H, IH; reflexivity.
Qed.
Lemma content_known : forall a ps, content41 a (known ps) = content41 a ps.
Proof. intros a ps. unfold content41. f_equal; try (apply last_known; reflexivity); apply all_known; reflexivity. Qed.


Lemma greatest_unique : forall i l a b, greatest i l a -> greatest i l b -> a = b.
Proof.
  intros i l a b (A1 & A2 & A3) (B1 & B2 & B3). rewrite Forall_forall in *.
  destruct A1 as [->|A1], B1 as [->|B1]; try reflexivity.
  - specialize (A3 _ B1). cbn beta in *. lia.
  - specialize (B3 _ A1). cbn beta in *. lia.
  - specialize (A3 _ B1). specialize (B3 _ A1). cbn beta in *. lia.
Qed.
Lemma least_same : forall i l a b, least i l a -> least i l b -> a = b.
Proof.
  intros i l a b (A1 & A2 & A3) (B1 & B2 & B3). rewrite Forall_forall in *.
  destruct A1 as [->|A1], B1 as [->|B1]; try reflexivity.
  - specialize (A3 _ B1). cbn beta in *. lia.
  - specialize (B3 _ A1). cbn beta in *. lia.
  - specialize (A3 _ B1). specialize (B3 _ A1). cbn beta in *. lia.
Qed.

Lemma contents_mesh : forall a a' qs qs' lo hi s s', content22 a qs lo hi s -> content22 a' qs' lo hi s' -> same_contents qs qs' ->
  all_recs (parts_of qs) <> [] -> Forall (fun r => 0 <= er_id r) (all_recs (parts_of qs)) ->
  same_mesh s s' /\
  (element_sections (parts_of qs) = element_sections (parts_of qs') -> entities s = entities s') /\
  mesh_format s = format_22 a /\ mesh_format s' = format_22 a' /\
  e_num_elements (elements s) = (if a then to_size (zlen (all_recs (parts_of qs))) else zlen (last_recs (parts_of qs) [])) /\
  e_num_elements (elements s') = (if a' then to_size (zlen (all_recs (parts_of qs))) else zlen (last_recs (parts_of qs') [])).
Proof.
  intros a a' qs qs' lo hi s s' [M1 A1 A2 A3 A4 A5 A6 A7] [M2 B1 B2 B3 B4 B5 B6 B7] [SN SR SX] NE ID.
  set (ps := parts_of qs) in *. set (ps' := parts_of qs') in *.
  destruct M1 as [F1 N1 C1 L1 H1 [NN1 NB1 _ EN1 EB1] NF1 ND1 K1 E1 EF1 ED1 NE1 I1 T1 _ _ _].
  destruct M2 as [F2 N2 C2 L2 H2 [NN2 NB2 _ EN2 EB2] NF2 ND2 K2 E2 EF2 ED2 NE2 I2 T2 _ _ _].
  cbn [bare mesh_format nodes elements entities] in *. rewrite <- SN in *. rewrite <- SR in *.
  assert (NB : n_blocks (nodes s) = n_blocks (nodes s')).
  { apply (node_blocks_unique (map rec_element (all_recs ps))); try assumption.
    - eapply Forall_impl; [exact plain_22|exact NB1].
    - eapply Forall_impl; [exact plain_22|exact NB2].
    - intros b t Hb. apply in_app_or in Hb. destruct Hb; auto.
    - change (mesh_nodes (nodes s) = mesh_nodes (nodes s')). congruence. }
  assert (EB : e_blocks (elements s) = e_blocks (elements s')).
  { apply element_blocks_unique; try assumption. change (mesh_elements (elements s) = mesh_elements (elements s')). congruence. }
  destruct (I1 NE ID) as [P1 Q1]. destruct (I2 NE ID) as [P2 Q2].
  split; [|split; [|split; [exact F1|split; [exact F2|split; assumption]]]].
  - split; try congruence.
    + destruct (nodes s) as [x1 x2 x3 x4 x5], (nodes s') as [y1 y2 y3 y4 y5].
      cbn [n_num_blocks n_num_nodes n_min n_max n_blocks] in *. congruence.
    + exact (least_same _ _ _ _ P1 P2).
    + exact (greatest_unique _ _ _ _ Q1 Q2).
    + intros d t p. rewrite (carried_from _ _ _ d t p T1), (carried_from _ _ _ d t p T2), SR. reflexivity.
    + rewrite A1, B1, <- (content_known a), SX, content_known. reflexivity.
    + rewrite A2, B2, <- (content_known a), SX, content_known. reflexivity.
    + rewrite A3, B3, <- (content_known a), SX, content_known. reflexivity.
    + rewrite A4, B4, <- (content_known a), SX, content_known. reflexivity.
    + rewrite A5, B5, <- (content_known a), SX, content_known. reflexivity.
    + rewrite A6, B6, <- (content_known a), SX, content_known. reflexivity.
    + rewrite A7, B7, <- (content_known a), SX, content_known. reflexivity.
  - intro X. apply from_through in T1. apply from_through in T2. rewrite <- X in T2. eapply through_unique; eassumption.
Qed.

Lemma same_loaded : forall c a a' qs qs' lo hi b b', any22 a qs b -> any22 a' qs' b' ->
  Forall (sec22_ok c a) qs -> Forall (sec22_ok c a') qs' -> loadable c (parts_of qs) lo hi -> loadable c (parts_of qs') lo hi ->
  same_contents qs qs' -> all_recs (parts_of qs) <> [] -> Forall (fun r => 0 <= er_id r) (all_recs (parts_of qs)) ->
  exists s s', load_msh c b = Ok s /\ load_msh c b' = Ok s' /\ same_mesh s s' /\
    mesh_format s = format_22 a /\ mesh_format s' = format_22 a' /\
    (element_sections (parts_of qs) = element_sections (parts_of qs') -> entities s = entities s') /\
    (a = true -> a' = true -> e_num_elements (elements s) = e_num_elements (elements s')) /\
    (a = false -> a' = false -> zlen (last_recs (parts_of qs) []) = zlen (last_recs (parts_of qs') []) ->
     e_num_elements (elements s) = e_num_elements (elements s')).
Proof.
  intros c a a' qs qs' lo hi b b' H H' OK OK' LD LD' SC NE ID.
  destruct (any22_loads c a qs b lo hi H OK LD) as (s & L & C). destruct (any22_loads c a' qs' b' lo hi H' OK' LD') as (s' & L' & C').
  destruct (contents_mesh a a' qs qs' lo hi s s' C C' SC NE ID) as (M & E & F & F' & N & N').
  exists s, s'. split; [exact L|]. split; [exact L'|]. split; [exact M|]. split; [exact F|]. split; [exact F'|]. split; [exact E|].
  split; intros -> ->; congruence.
Qed.

Lemma mesh_equal : forall s s', same_mesh s s' -> mesh_format s = mesh_format s' -> entities s = entities s' ->
  e_num_elements (elements s) = e_num_elements (elements s') -> s = s'.
Proof.
  intros [f n e en pg nd ed edn nv cs ps] [f' n' e' en' pg' nd' ed' edn' nv' cs' ps'] M F E N. destruct M.
  cbn [mesh_format nodes elements entities physical_groups node_data element_data element_node_data ns_version curves patches] in *.
  destruct e as [e1 e2 e3 e4 e5], e' as [f1 f2 f3 f4 f5]. cbn [e_num_blocks e_num_elements e_min e_max e_blocks] in *. congruence.
Qed.
