(** The maps from entity tags to physical tags built while reading 2.2 elements. *)

From Verif Require Import Model.LoadMsh Spec.Files22 Proofs.BytesP Proofs.ElemP Proofs.PostP Proofs.Load22P.

Ltac Zify.zify_post_hook ::= idtac.

Lemma inc_cons : forall x l, increasing (x :: l) <-> Forall (fun y => x < y) l /\ increasing l.
Proof.
  intros x l. revert x. induction l as [|y l IH]; intro x.
  - split; [intros _; split; constructor|intros _; exact I].
  - change (increasing (x :: y :: l)) with (x < y /\ increasing (y :: l)). rewrite (IH y). split.
    + intros (H & F & G). split; [|split; assumption]. constructor; [exact H|].
      eapply Forall_impl; [|exact F]. cbn beta. intros; lia.
    + intros (F & H). inversion F. subst. auto.
Qed.

Lemma set_insert_in : forall x l y, In y (set_insert x l) <-> y = x \/ In y l.
Proof.
  intros x l y. induction l as [|z l IH]; cbn [set_insert].
  - cbn [In]. split; intros [H|H]; auto; contradiction.
  - destruct (x <? z); [cbn [In]; split; intros [H|H]; auto|].
    destruct (x =? z) eqn:E.
    + apply Z.eqb_eq in E. subst. cbn [In]. split; [auto|]. intros [->|H]; auto.
    + cbn [In]. rewrite IH. split; intros [H|[H|H]]; auto.
Qed.

Lemma set_insert_inc : forall x l, increasing l -> increasing (set_insert x l).
Proof.
  intros x l. induction l as [|z l IH]; intro H; cbn [set_insert]; [exact I|].
  destruct (x <? z) eqn:E1.
  - apply Z.ltb_lt in E1. split; assumption.
  - destruct (x =? z) eqn:E2; [exact H|]. apply Z.ltb_ge in E1. apply Z.eqb_neq in E2.
    apply inc_cons in H. destruct H as [F H]. apply inc_cons. split; [|apply IH; exact H].
    apply Forall_forall. intros y Hy. apply set_insert_in in Hy. destruct Hy as [->|Hy]; [lia|].
    rewrite Forall_forall in F. apply F. exact Hy.
Qed.

(** A map as the loader keeps it. *)
Record sorted_map (m : pmap) : Prop := {
  sm_keys : increasing (map fst m);
  sm_vals : forall t ps, In (t, ps) m -> increasing ps /\ ps <> [] }.

Definition has (m : pmap) (t p : Z) : Prop := exists ps, In (t, ps) m /\ In p ps.

Lemma map_add_keys : forall k p m x, In x (map fst (map_add k p m)) <-> x = k \/ In x (map fst m).
Proof.
  intros k p m x. induction m as [|[k' ps] m IH]; cbn [map_add].
  - cbn [map fst In]. split; intros [H|H]; auto.
  - destruct (k <? k'); [cbn [map fst In]; split; intros [H|H]; auto|].
    destruct (k =? k') eqn:E.
    + apply Z.eqb_eq in E. subst. cbn [map fst In]. split; [auto|]. intros [->|H]; auto.
    + cbn [map fst In]. rewrite IH. split; intros [H|[H|H]]; auto.
Qed.

Lemma map_add_sorted : forall k p m, sorted_map m -> sorted_map (map_add k p m).
Proof.
  intros k p m. induction m as [|[k' ps] m IH]; intros [H1 H2]; cbn [map_add].
  - split; [exact I|]. intros t qs [E|[]]. injection E as <- <-. split; [exact I|discriminate].
  - destruct (k <? k') eqn:E1.
    { apply Z.ltb_lt in E1. split; [split; [exact E1|exact H1]|].
      intros t qs [E|H]; [|apply (H2 t qs H)]. injection E as <- <-. split; [exact I|discriminate]. }
    destruct (k =? k') eqn:E2.
    { apply Z.eqb_eq in E2. subst k'. split; [exact H1|].
      intros t qs [E|H]; [|apply (H2 t qs); right; exact H]. injection E as <- <-.
      destruct (H2 k ps (or_introl eq_refl)) as [I1 I2]. split; [apply set_insert_inc; exact I1|].
      intro X. assert (IN : In p (set_insert p ps)) by (apply set_insert_in; auto). rewrite X in IN. destruct IN. }
    apply Z.ltb_ge in E1. apply Z.eqb_neq in E2. cbn [map fst] in H1. apply inc_cons in H1. destruct H1 as [F H1].
    destruct IH as [J1 J2].
    { split; [exact H1|]. intros t qs H. apply (H2 t qs). right. exact H. }
    split.
    + cbn [map fst]. apply inc_cons. split; [|exact J1]. apply Forall_forall. intros x Hx.
      apply map_add_keys in Hx. destruct Hx as [->|Hx]; [lia|]. rewrite Forall_forall in F. apply F. exact Hx.
    + intros t qs [E|H]; [injection E as <- <-; apply (H2 k' ps); left; reflexivity|exact (J2 t qs H)].
Qed.

Lemma map_add_has : forall k p m t q, increasing (map fst m) ->
  has (map_add k p m) t q <-> (t = k /\ q = p) \/ has m t q.
Proof.
  intros k p m t q. unfold has. induction m as [|[k' ps] m IH]; intro H1; cbn [map_add].
  - split.
    + intros (qs & [E|[]] & Hq). injection E as <- <-. destruct Hq as [<-|[]]. auto.
    + intros [(-> & ->)|(qs & [] & _)]. exists [p]. split; left; reflexivity.
  - destruct (k <? k') eqn:E1.
    { split.
      - intros (qs & [E|Hi] & Hq); [|right; exists qs; auto].
        injection E as <- <-. destruct Hq as [<-|[]]. auto.
      - intros [(-> & ->)|(qs & Hi & Hq)]; [exists [p]; split; left; reflexivity|].
        exists qs. split; [right; exact Hi|exact Hq]. }
    destruct (k =? k') eqn:E2.
    { apply Z.eqb_eq in E2. subst k'. split.
      - intros (qs & [E|Hi] & Hq).
        + injection E as <- <-. apply set_insert_in in Hq. destruct Hq as [->|Hq]; [auto|].
          right. exists ps. split; [left; reflexivity|exact Hq].
        + right. exists qs. split; [right; exact Hi|exact Hq].
      - intros [(-> & ->)|(qs & [E|Hi] & Hq)].
        + exists (set_insert p ps). split; [left; reflexivity|apply set_insert_in; auto].
        + injection E as <- <-. exists (set_insert p ps). split; [left; reflexivity|apply set_insert_in; auto].
        + exists qs. split; [right; exact Hi|exact Hq]. }
    cbn [map fst] in H1. apply inc_cons in H1. destruct H1 as [_ H1]. specialize (IH H1). split.
    + intros (qs & [E|Hi] & Hq).
      * right. exists qs. split; [left; exact E|exact Hq].
      * destruct (proj1 IH) as [X|(rs & Y1 & Y2)]; [exists qs; auto|auto|].
        right. exists rs. split; [right; exact Y1|exact Y2].
    + intros [X|(qs & [E|Hi] & Hq)].
      * destruct (proj2 IH (or_introl X)) as (rs & Y1 & Y2). exists rs. split; [right; exact Y1|exact Y2].
      * exists qs. split; [left; exact E|exact Hq].
      * destruct (proj2 IH) as (rs & Y1 & Y2); [right; exists qs; auto|].
        exists rs. split; [right; exact Y1|exact Y2].
Qed.

Lemma upd_nth_length : forall A (l : list A) i f, List.length (upd_nth l i f) = List.length l.
Proof. intros A l. induction l as [|x l IH]; intros [|i] f; cbn [upd_nth List.length]; auto. Qed.

Lemma upd_nth_same : forall A (l : list A) i f d, (i < List.length l)%nat -> nth i (upd_nth l i f) d = f (nth i l d).
Proof.
  intros A l. induction l as [|x l IH]; intros [|i] f d H; cbn [List.length] in H; try lia; [reflexivity|].
  cbn [upd_nth nth]. apply IH. lia.
Qed.

Lemma upd_nth_other : forall A (l : list A) i j f d, i <> j -> nth j (upd_nth l i f) d = nth j l d.
Proof.
  intros A l. induction l as [|x l IH]; intros [|i] [|j] f d H; try reflexivity; try congruence.
  cbn [upd_nth nth]. apply IH. congruence.
Qed.

Lemma rec_dim_range : forall r, rec_ok r -> 0 <= rec_dim r <= 3.
Proof.
  intros r [_ H _ _]. destruct (nodes_dim _ _ H) as (d & Hd). unfold rec_dim. rewrite Hd.
  apply (gmsh_dim_range _ _ Hd).
Qed.

Lemma tagged_snoc : forall recs r d t p, tagged (recs ++ [r]) d t p <->
  (rec_dim r = d /\ exists l, er_tags r = p :: t :: l) \/ tagged recs d t p.
Proof.
  intros recs r d t p. unfold tagged. split.
  - intros (x & l & Hx & H1 & H2). apply in_app_or in Hx. destruct Hx as [Hx|[<-|[]]]; [right|left]; eauto.
  - intros [(H1 & l & H2)|(x & l & Hx & H1 & H2)].
    + exists r, l. split; [apply in_or_app; right; left; reflexivity|auto].
    + exists x, l. split; [apply in_or_app; left; exact Hx|auto].
Qed.

Lemma maps_tables : forall recs, Forall rec_ok recs ->
  List.length (fold_left add_rec recs pmaps_empty) = 4%nat /\
  forall d, 0 <= d <= 3 -> entity_table recs d (nth (Z.to_nat d) (fold_left add_rec recs pmaps_empty) []).
Proof.
  intro recs. induction recs as [|r recs IH] using rev_ind; intro H.
  - split; [reflexivity|]. intros d Hd. cbn [fold_left].
    assert (E : nth (Z.to_nat d) pmaps_empty [] = []).
    { assert (D : d = 0 \/ d = 1 \/ d = 2 \/ d = 3) by lia.
      destruct D as [->|[->|[->| ->]]]; reflexivity. }
    rewrite E. split; [exact I|intros t ps []|]. intros t p. split.
    + intros (ps & [] & _).
    + intros (x & l & [] & _).
  - apply Forall_app in H. destruct H as [H Hr]. inversion Hr as [|? ? Hok _]. subst.
    destruct (IH H) as [L T]. rewrite fold_left_app. cbn [fold_left].
    set (pm := fold_left add_rec recs pmaps_empty) in *. pose proof (rec_dim_range r Hok) as DR.
    unfold add_rec, classify.
    assert (same : (forall p t l, er_tags r <> p :: t :: l) -> List.length pm = 4%nat /\
              forall d, 0 <= d <= 3 -> entity_table (recs ++ [r]) d (nth (Z.to_nat d) pm [])).
    { intro N. split; [exact L|]. intros d Hd. destruct (T d Hd) as [T1 T2 T3]. split; [exact T1|exact T2|].
      intros t p. rewrite T3, tagged_snoc. split; [auto|]. intros [(_ & l & E)|X]; [|exact X].
      destruct (N _ _ _ E). }
    destruct (er_tags r) as [|p0 [|t0 l0]] eqn:ET.
    { apply same. intros. discriminate. }
    { apply same. intros. discriminate. }
    clear same. cbn [snd]. split; [rewrite upd_nth_length; exact L|]. intros d Hd.
    destruct (T d Hd) as [T1 T2 T3].
    destruct (Z.eq_dec d (rec_dim r)) as [ED|ED].
    + subst d. rewrite upd_nth_same by (rewrite L; lia).
      destruct (map_add_sorted t0 p0 (nth (Z.to_nat (rec_dim r)) pm [])) as [J1 J2]; [split; assumption|].
      split; [exact J1|exact J2|]. intros t p.
      change (has (map_add t0 p0 (nth (Z.to_nat (rec_dim r)) pm [])) t p <-> tagged (recs ++ [r]) (rec_dim r) t p).
      rewrite (map_add_has t0 p0 _ t p T1), tagged_snoc. unfold has. rewrite T3, ET. split.
      * intros [(-> & ->)|X]; [|auto]. left. split; [reflexivity|]. exists l0. reflexivity.
      * intros [(_ & l & E)|X]; [|auto]. injection E as -> -> _. auto.
    + rewrite upd_nth_other by lia. split; [exact T1|exact T2|]. intros t p. rewrite T3, tagged_snoc. split; [auto|].
      intros [(E & _)|X]; [congruence|exact X].
Qed.

Lemma entities_of_recs : forall recs en, Forall rec_ok recs ->
  entities_added recs en (create_all (fold_left add_rec recs pmaps_empty) en).
Proof.
  intros recs en H. destruct (maps_tables recs H) as [_ T].
  pose proof (T 0 ltac:(lia)) as T0. pose proof (T 1 ltac:(lia)) as T1.
  pose proof (T 2 ltac:(lia)) as T2. pose proof (T 3 ltac:(lia)) as T3.
  do 4 eexists. split; [exact T0|]. split; [exact T1|]. split; [exact T2|]. split; [exact T3|].
  repeat split.
Qed.
