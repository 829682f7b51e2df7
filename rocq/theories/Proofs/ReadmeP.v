(** The README's lookup in loaded meshes (C71). *)

From Verif Require Import Model.LoadMsh Spec.Readme Spec.Consistent22 Proofs.PostP Proofs.ConvertP Proofs.AgreeP.
Ltac Zify.zify_post_hook ::= idtac.

(** ** The entities as pairs *)

Definition pairs (en : Entities) (d : Z) : list (Z * list Z) :=
  if d =? 0 then map (fun e => (pe_tag e, pe_phys e)) (points en)
  else if d =? 1 then map (fun e => (en_tag e, en_phys e)) (curves_e en)
  else if d =? 2 then map (fun e => (en_tag e, en_phys e)) (surfaces_e en)
  else if d =? 3 then map (fun e => (en_tag e, en_phys e)) (volumes_e en)
  else [].

Definition in_pairs (l : list (Z * list Z)) (t : Z) : option (list Z) :=
  option_map snd (find (fun x => fst x =? t) l).

Lemma find_pairs : forall A (f : A -> Z) (g : A -> list Z) t l,
  option_map g (find (fun e => f e =? t) l) = in_pairs (map (fun e => (f e, g e)) l) t.
Proof.
  intros A f g t l. unfold in_pairs. induction l as [|x l IH]; [reflexivity|]. cbn [map find fst].
  destruct (f x =? t); [reflexivity|exact IH].
Qed.

Lemma lookup_pairs : forall en d t, lookup en d t = in_pairs (pairs en d) t.
Proof.
  intros en d t. unfold lookup, pairs.
  repeat (destruct (_ =? _); [apply find_pairs|]). reflexivity.
Qed.

Lemma in_pairs_app : forall l l' t,
  in_pairs (l ++ l') t = match in_pairs l t with Some g => Some g | None => in_pairs l' t end.
Proof.
  intros l l' t. unfold in_pairs. induction l as [|x l IH]; [reflexivity|]. cbn [app find].
  destruct (fst x =? t); [reflexivity|exact IH].
Qed.

Lemma in_pairs_some : forall l t g, in_pairs l t = Some g -> In (t, g) l.
Proof.
  intros l t g. unfold in_pairs. destruct (find _ l) as [[t' g']|] eqn:F; [|discriminate]. cbn [option_map snd].
  intro E. injection E as ->. apply find_some in F. cbn [fst] in F. destruct F as [F1 F2]. apply Z.eqb_eq in F2.
  subst t'. exact F1.
Qed.

Lemma in_pairs_none : forall l t g, in_pairs l t = None -> ~ In (t, g) l.
Proof.
  intros l t g. unfold in_pairs. destruct (find _ l) as [x|] eqn:F; [discriminate|]. intros _ I.
  pose proof (find_none _ _ F _ I) as N. cbn [fst] in N. rewrite Z.eqb_refl in N. discriminate N.
Qed.

Lemma increasing_head : forall l x y, increasing (x :: l) -> In y l -> x < y.
Proof.
  induction l as [|z l IH]; intros x y H I; [destruct I|]. cbn [increasing] in H. destruct H as [H1 H2].
  destruct I as [<-|I]; [exact H1|]. pose proof (IH z y H2 I). lia.
Qed.

Lemma increasing_tail : forall l x, increasing (x :: l) -> increasing l.
Proof. intros [|y l] x H; [exact I|]. cbn [increasing] in H. exact (proj2 H). Qed.

Lemma one_value : forall (l : list (Z * list Z)) t g g', increasing (map fst l) -> In (t, g) l -> In (t, g') l -> g = g'.
Proof.
  induction l as [|[u h] l IH]; intros t g g' S I J; [destruct I|]. cbn [map fst] in S.
  assert (N : forall k, u = t -> ~ In (t, k) l).
  { intros k -> K. pose proof (increasing_head _ _ t S (in_map fst _ _ K)). lia. }
  destruct I as [I|I], J as [J|J].
  - congruence.
  - injection I as I1 I2. destruct (N g' I1 J).
  - injection J as J1 J2. destruct (N g J1 I).
  - exact (IH t g g' (increasing_tail _ _ S) I J).
Qed.

(** ** One section *)

Lemma table_lookup : forall recs d l t, entity_table recs d l ->
  match in_pairs l t with Some g => groups_of recs d t g /\ exists p, tagged recs d t p | None => forall p, ~ tagged recs d t p end.
Proof.
  intros recs d l t [T1 T2 T3]. destruct (in_pairs l t) as [g|] eqn:E.
  - apply in_pairs_some in E. destruct (T2 t g E) as [G1 G2].
    assert (G : forall p, In p g <-> tagged recs d t p).
    { intro p. rewrite <- T3. split.
      - intro H. exists g. auto.
      - intros (g' & H1 & H2). rewrite (one_value l t g g' T1 E H1). exact H2. }
    split; [split; assumption|]. destruct g as [|p g]; [destruct (G2 eq_refl)|]. exists p. apply G. left. reflexivity.
  - intros p H. apply T3 in H. destruct H as (g & H & _). exact (in_pairs_none l t g E H).
Qed.

Lemma map_point_of : forall l, map (fun e => (pe_tag e, pe_phys e)) (map point_of l) = l.
Proof. intro l. rewrite map_map. rewrite <- (map_id l) at 2. apply map_ext. intros []. reflexivity. Qed.
Lemma map_entity_of : forall l, map (fun e => (en_tag e, en_phys e)) (map entity_of l) = l.
Proof. intro l. rewrite map_map. rewrite <- (map_id l) at 2. apply map_ext. intros []. reflexivity. Qed.

Lemma added_pairs : forall recs en en' d, entities_added recs en en' -> 0 <= d <= 3 ->
  exists l, entity_table recs d l /\ pairs en' d = pairs en d ++ l.
Proof.
  intros recs en en' d (l0 & l1 & l2 & l3 & T0 & T1 & T2 & T3 & E0 & E1 & E2 & E3) D. unfold pairs.
  assert (C : d = 0 \/ d = 1 \/ d = 2 \/ d = 3) by lia. destruct C as [->|[->|[->| ->]]].
  - exists l0. split; [exact T0|]. cbn [Z.eqb]. rewrite E0, map_app, map_point_of. reflexivity.
  - exists l1. split; [exact T1|]. cbn [Z.eqb Pos.eqb]. rewrite E1, map_app, map_entity_of. reflexivity.
  - exists l2. split; [exact T2|]. cbn [Z.eqb Pos.eqb]. rewrite E2, map_app, map_entity_of. reflexivity.
  - exists l3. split; [exact T3|]. cbn [Z.eqb Pos.eqb]. rewrite E3, map_app, map_entity_of. reflexivity.
Qed.

(** ** All sections *)

Lemma first_in : forall ps en en' d t, entities_from ps en en' -> 0 <= d <= 3 ->
  match lookup en d t with
  | Some g => lookup en' d t = Some g
  | None =>
    match lookup en' d t with
    | Some g => exists l, first_with ps d t l /\ groups_of l d t g
    | None => forall p, ~ tagged (all_recs ps) d t p
    end
  end.
Proof.
  intros ps en en' d t H D. induction H as [en|l ps en en' H IH|l ps en en1 en' A H IH].
  - destruct (lookup en d t) eqn:E; [reflexivity|]. intros p (r & k & [] & _).
  - destruct (lookup en d t) as [g|] eqn:E; [exact IH|]. destruct (lookup en' d t) as [g|] eqn:E'.
    + destruct IH as (k & (ps1 & ps2 & -> & F1 & F2) & G). exists k. split; [|exact G].
      exists (NodesPart l :: ps1), ps2. split; [reflexivity|]. split; [exact F1|exact F2].
    + exact IH.
  - destruct (added_pairs l en en1 d A D) as (k & T & P). pose proof (table_lookup l d k t T) as TL.
    rewrite !lookup_pairs in *. rewrite P, in_pairs_app in IH.
    destruct (in_pairs (pairs en d) t) as [g|] eqn:E; [exact IH|].
    destruct (in_pairs k t) as [g|] eqn:K.
    + rewrite IH. exists l. destruct TL as [TL1 TL2]. split; [|exact TL1]. exists [], ps.
      split; [reflexivity|]. split; [intros p (r & z & [] & _)|exact TL2].
    + destruct (in_pairs (pairs en' d) t) as [g|] eqn:E'.
      * destruct IH as (k' & (ps1 & ps2 & -> & F1 & F2) & G). exists k'. split; [|exact G].
        exists (ElementsPart l :: ps1), ps2. split; [reflexivity|]. split; [|exact F2].
        intros p (r & z & I & R). unfold all_recs in I. cbn [flat_map part_recs] in I. apply in_app_or in I.
        destruct I as [I|I]; [apply (TL p)|apply (F1 p)]; exists r, z; auto.
      * intros p (r & z & I & R). unfold all_recs in I. cbn [flat_map part_recs] in I. apply in_app_or in I.
        destruct I as [I|I]; [apply (TL p)|apply (IH p)]; exists r, z; auto.
Qed.

(** Every block is that of a record. *)
Lemma block_rec : forall s recs b, mesh_elements (elements s) = map rec_element recs ->
  Forall element_block_22 (e_blocks (elements s)) -> Forall (fun b => 0 < eb_num b) (e_blocks (elements s)) ->
  In b (e_blocks (elements s)) -> 0 <= eb_dim b <= 3 /\
  exists r, In r recs /\ rec_dim r = eb_dim b /\ rec_entity r = eb_tag b.
Proof.
  intros s recs b M B F I. rewrite Forall_forall in B, F. pose proof (block_elements_full b (B b I) (F b I)) as N.
  split.
  - pose proof (eb22_dim _ (B b I)) as D. apply gmsh_dim_range in D. exact (proj1 D).
  - destruct (block_elements b) as [|e l] eqn:E; [destruct (N eq_refl)|].
    assert (J : In e (block_elements b)) by (rewrite E; left; reflexivity).
    assert (J' : In e (map rec_element recs)).
    { rewrite <- M. unfold mesh_elements. apply in_flat_map. exists b. auto. }
    apply in_map_iff in J'. destruct J' as (r & <- & Hr). exists r. split; [exact Hr|].
    pose proof (element_block_key b _ J) as K. unfold element_key in K. cbn [rec_element el_dim el_ent el_type] in K.
    injection K as K1 K2 K3. auto.
Qed.
