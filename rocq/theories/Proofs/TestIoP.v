(** The comparison of the tests, and the specs that pass it. *)

From Verif Require Import Model.TestIo Spec.Alike Spec.Consistent22 Proofs.BytesP Proofs.DblP Proofs.DecP Proofs.RoundP
  Proofs.RtBase Proofs.ValidateP.
Ltac Zify.zify_post_hook ::= idtac.

(** ** Doubles *)

Lemma mag_fields : forall x, size_ok x ->
  (x / 2 ^ 52) mod 2 ^ 11 = dmag x / 2 ^ 52 /\ x mod 2 ^ 52 = dmag x mod 2 ^ 52 /\ 0 <= dmag x < 2 ^ 63.
Proof.
  intros x [H1 H2]. unfold two64 in H2. unfold dmag. change two63 with (2 ^ 63) in *. destruct (Z.leb_spec (2 ^ 63) x) as [L|L].
  - assert (E : x = (x - 2 ^ 63) + 2048 * 2 ^ 52) by lia. set (y := x - 2 ^ 63) in *.
    assert (Y : 0 <= y < 2 ^ 63) by (unfold y; lia). split; [|split; [|exact Y]].
    + rewrite E. rewrite Z.div_add by lia. change 2048 with (1 * 2 ^ 11). rewrite Z.mod_add by lia. apply Z.mod_small.
      split; [apply Z.div_pos; lia|]. apply Z.div_lt_upper_bound; lia.
    + rewrite E. apply Z.mod_add. lia.
  - split; [|split; [reflexivity|lia]]. apply Z.mod_small. split; [apply Z.div_pos; lia|]. apply Z.div_lt_upper_bound; lia.
Qed.

Lemma finite_iff : forall x, size_ok x -> (finite x <-> dmag x < inf_mag).
Proof.
  intros x H. unfold finite. destruct (mag_fields x H) as (-> & _ & R). change inf_mag with (2047 * 2 ^ 52). split; intro F.
  - destruct (Z_lt_le_dec (dmag x) (2047 * 2 ^ 52)) as [L|L]; [exact L|]. exfalso. apply F.
    apply Z.le_antisymm; [|apply Z.div_le_lower_bound; lia].
    apply Z.lt_succ_r. apply Z.div_lt_upper_bound; lia.
  - intro E. pose proof (Z.mul_div_le (dmag x) (2 ^ 52) ltac:(lia)). lia.
Qed.

Lemma infinite_iff : forall x, size_ok x -> (infinite x <-> dmag x = inf_mag).
Proof.
  intros x H. unfold infinite. destruct (mag_fields x H) as (-> & -> & R). change inf_mag with (2047 * 2 ^ 52). split.
  - intros [E1 E2]. rewrite (Z.div_mod (dmag x) (2 ^ 52)) by lia. rewrite E1, E2. reflexivity.
  - intros ->. split; reflexivity.
Qed.

Lemma dval_zero : forall x y, size_ok x -> size_ok y -> finite x -> finite y -> dneg x <> dneg y ->
  (dval x == dval y)%Q -> dmag x = 0 /\ dmag y = 0.
Proof.
  intros x y Hx Hy Fx Fy N E. rewrite (dval_frac x Hx Fx), (dval_frac y Hy Fy), frac_eq in E.
  pose proof (finite_mag x Hx Fx) as M1. pose proof (finite_mag y Hy Fy) as M2. pose proof P400_pos as HP.
  assert (P : forall a, 0 <= a < inf_mag -> 0 <= mag_units a).
  { intros a A. unfold mag_units. cbv zeta. pose proof (Z.mod_pos_bound a two52 ltac:(reflexivity)).
    destruct (a / two52 =? 0); [lia|]. apply Z.mul_nonneg_nonneg; [unfold two52 in *; lia|]. apply Z.pow_nonneg. lia. }
  assert (U : mag_units (dmag x) = mag_units 0 /\ mag_units (dmag y) = mag_units 0).
  { change (mag_units 0) with 0. pose proof (P _ M1). pose proof (P _ M2).
    destruct (dneg x), (dneg y); try congruence; apply (Z.mul_reg_r _ _ P400) in E; lia. }
  destruct U as [U1 U2]. split; apply mag_units_inj; lia.
Qed.

Lemma deq_iff : forall x y, size_ok x -> size_ok y -> (deq x y = true <-> equal x y).
Proof.
  intros x y Hx Hy. unfold deq, equal. rewrite !Bool.andb_true_iff, !Z.leb_le, Bool.orb_true_iff, Bool.andb_true_iff, !Z.eqb_eq.
  split.
  - intros [[L1 L2] [<-|[Z1 Z2]]].
    + apply Z.le_lteq in L1. destruct L1 as [L1|L1]; [left|right].
      * apply finite_iff in L1; [|exact Hx]. split; [exact L1|]. split; [exact L1|reflexivity].
      * split; [apply infinite_iff; assumption|reflexivity].
    + left. assert (Fx : finite x) by (apply finite_iff; [exact Hx|rewrite Z1; reflexivity]).
      assert (Fy : finite y) by (apply finite_iff; [exact Hy|rewrite Z2; reflexivity]).
      split; [exact Fx|]. split; [exact Fy|]. rewrite (dval_frac x Hx Fx), (dval_frac y Hy Fy), frac_eq, Z1, Z2.
      change (mag_units 0) with 0. destruct (dneg x), (dneg y); reflexivity.
  - intros [(Fx & Fy & E)|[I <-]].
    + pose proof (proj1 (finite_iff x Hx) Fx). pose proof (proj1 (finite_iff y Hy) Fy). split; [split; lia|].
      destruct (Bool.bool_dec (dneg x) (dneg y)) as [N|N].
      * left. apply dval_inj; assumption.
      * right. apply dval_zero; assumption.
    + apply infinite_iff in I; [|exact Hx]. split; [split; lia|]. left. reflexivity.
Qed.

Lemma vec_eq_iff : forall A (eq : A -> A -> bool) (P : A -> A -> Prop) l1 l2,
  (forall x y, In x l1 -> In y l2 -> (eq x y = true <-> P x y)) ->
  (vec_eq eq l1 l2 = true <-> Forall2 P l1 l2).
Proof.
  intros A eq P l1. induction l1 as [|x l1 IH]; intros [|y l2] H; cbn [vec_eq].
  1: split; [constructor|reflexivity].
  1, 2: split; [discriminate|intro F; inversion F].
  rewrite Bool.andb_true_iff, (H x y (or_introl eq_refl) (or_introl eq_refl)), IH
    by (intros; apply H; right; assumption).
  split; [intros [? ?]; constructor; assumption|intro F; inversion F; subst; split; assumption].
Qed.

Lemma forall2_eq : forall A (l1 l2 : list A), Forall2 eq l1 l2 <-> l1 = l2.
Proof.
  intros A l1 l2. split; [intro H; induction H; congruence|intros <-]. induction l1; constructor; auto.
Qed.

Lemma ints_eq : forall l1 l2, vec_eq Z.eqb l1 l2 = true <-> l1 = l2.
Proof. intros. rewrite (vec_eq_iff _ _ eq) by (intros; apply Z.eqb_eq). apply forall2_eq. Qed.

Lemma dbls_eq : forall l1 l2, Forall size_ok l1 -> Forall size_ok l2 -> (vec_eq deq l1 l2 = true <-> Forall2 equal l1 l2).
Proof.
  intros l1 l2 H1 H2. apply vec_eq_iff. intros x y Hx Hy. rewrite Forall_forall in *. apply deq_iff; auto.
Qed.

(** ** Loops *)

Lemma each_map : forall f g l, each f (map g l) = each (fun i => f (g i)) l.
Proof. intros f g l. induction l as [|i l IH]; [reflexivity|]. cbn [map each]. rewrite IH. reflexivity. Qed.

Lemma each_ext : forall f g l, (forall i, In i l -> f i = g i) -> each f l = each g l.
Proof.
  intros f g l. induction l as [|i l IH]; intro H; [reflexivity|]. cbn [each]. rewrite H by (left; reflexivity).
  rewrite IH by (intros; apply H; right; assumption). reflexivity.
Qed.

Lemma iota_S : forall n, iota (Z.of_nat (S n)) = 0 :: map Z.succ (iota (Z.of_nat n)).
Proof.
  intro n. unfold iota. rewrite !Nat2Z.id. cbn [seq map]. f_equal. rewrite <- seq_shift, !map_map. apply map_ext. intro. lia.
Qed.

Lemma at_succ : forall A (x : A) l i, 0 <= i -> at_ (x :: l) (Z.succ i) = at_ l i.
Proof.
  intros A x l i H. unfold at_. replace (Z.succ i <? 0) with false by (symmetry; apply Z.ltb_ge; lia).
  replace (i <? 0) with false by (symmetry; apply Z.ltb_ge; lia). rewrite Z2Nat.inj_succ by lia. reflexivity.
Qed.

(** A loop over two vectors of the same length is decided by its bodies. *)
Lemma each2_iff : forall A (f : A -> A -> outcome bool) (P : A -> A -> Prop) l1 l2 n,
  n = zlen l1 -> zlen l1 = zlen l2 ->
  (forall x y, In x l1 -> In y l2 -> (f x y = Ok true /\ P x y) \/ (f x y = Ok false /\ ~ P x y)) ->
  (each2 n l1 l2 f = Ok true /\ Forall2 P l1 l2) \/ (each2 n l1 l2 f = Ok false /\ ~ Forall2 P l1 l2).
Proof.
  intros A f P l1 l2 n ->. revert l2. induction l1 as [|x l1 IH]; intros [|y l2] L H.
  - left. split; [reflexivity|constructor].
  - rewrite zlen_cons, zlen_nil in L. pose proof (zlen_nonneg _ l2). lia.
  - rewrite zlen_cons, zlen_nil in L. pose proof (zlen_nonneg _ l1). lia.
  - rewrite !zlen_cons in L. specialize (IH l2 ltac:(lia)).
    assert (E : each2 (zlen (x :: l1)) (x :: l1) (y :: l2) f = both (f x y) (each2 (zlen l1) l1 l2 f)).
    { unfold each2, zlen. cbn [List.length]. rewrite iota_S. cbn [each]. f_equal. rewrite each_map. apply each_ext.
      intros i Hi. assert (0 <= i) by (unfold iota in Hi; apply in_map_iff in Hi; destruct Hi as (? & <- & _); lia).
      rewrite !at_succ by assumption. reflexivity. }
    rewrite E. destruct (H x y (or_introl eq_refl) (or_introl eq_refl)) as [[-> HP]|[-> HP]]; cbn [both obind REQUIRE].
    + destruct IH as [[-> F]|[-> F]]; [intros; apply H; right; assumption| |].
      * left. split; [reflexivity|constructor; assumption].
      * right. split; [reflexivity|]. intro G. inversion G; subst. auto.
    + right. split; [reflexivity|]. intro G. inversion G; subst. auto.
Qed.

(** ** What the comparison decides *)

Definition decides (x : outcome bool) (P : Prop) : Prop := (x = Ok true /\ P) \/ (x = Ok false /\ ~ P).

Lemma dec_ok : forall b P, (b = true <-> P) -> decides (Ok b) P.
Proof. intros [] P H; [left|right]; (split; [reflexivity|]); [tauto|]. intro HP. apply H in HP. discriminate. Qed.

Lemma dec_require : forall b k (P Q : Prop), (b = true <-> P) -> (P -> decides k Q) -> decides (REQUIRE b k) (P /\ Q).
Proof.
  intros [] k P Q H D; unfold REQUIRE.
  - assert (HP : P) by tauto. destruct (D HP) as [[-> HQ]|[-> HQ]]; [left|right]; tauto.
  - right. split; [reflexivity|]. intros [HP _]. apply H in HP. discriminate.
Qed.

Lemma dec_both : forall x y (P Q : Prop), decides x P -> decides y Q -> decides (both x y) (P /\ Q).
Proof.
  intros x y P Q [[-> HP]|[-> HP]] D; unfold both; cbn [obind].
  - apply dec_require; [tauto|auto].
  - right. tauto.
Qed.

Lemma dec_iff : forall x (P Q : Prop), decides x P -> (P <-> Q) -> decides x Q.
Proof. intros x P Q [[-> H]|[-> H]] E; [left|right]; tauto. Qed.

Lemma nodes_dec : forall s s', counted s -> counted s' ->
  (zlen (n_blocks (nodes s)) = zlen (n_blocks (nodes s')) ->
   Forall (fun b => Forall size_ok (nb_data b)) (n_blocks (nodes s)) /\
   Forall (fun b => Forall size_ok (nb_data b)) (n_blocks (nodes s'))) ->
  decides (assert_same_nodes s s')
    ((n_num_blocks (nodes s) = n_num_blocks (nodes s') /\ n_num_nodes (nodes s) = n_num_nodes (nodes s') /\
      n_min (nodes s) = n_min (nodes s') /\ n_max (nodes s) = n_max (nodes s')) /\
     Forall2 alike_node_block (n_blocks (nodes s)) (n_blocks (nodes s'))).
Proof.
  intros s s' [C1 _] [C2 _] Z. unfold assert_same_nodes. cbv zeta. apply dec_require.
  - rewrite !Bool.andb_true_iff, !Z.eqb_eq. tauto.
  - intros (E & _). rewrite C1, C2 in E. destruct (Z E) as [Z1 Z2]. rewrite Forall_forall in Z1, Z2.
    apply each2_iff; [exact C1|exact E|]. intros b b' I1 I2. apply dec_ok. unfold alike_node_block.
    rewrite !Bool.andb_true_iff, !Z.eqb_eq, ints_eq, dbls_eq by auto. tauto.
Qed.

Lemma elements_dec : forall s s', counted s -> counted s' ->
  decides (assert_same_elements s s') (elements s = elements s').
Proof.
  intros s s' [_ C1] [_ C2]. eapply dec_iff.
  - unfold assert_same_elements. cbv zeta. apply dec_require.
    + rewrite !Bool.andb_true_iff, !Z.eqb_eq. reflexivity.
    + intros [[[E _] _] _]. rewrite C1, C2 in E. apply (each2_iff _ _ eq); [exact C1|exact E|].
      intros b b' _ _. apply dec_ok. rewrite !Bool.andb_true_iff, !Z.eqb_eq, ints_eq.
      destruct b, b'; cbn. split; [intros [[[[-> ->] ->] ->] ->]; reflexivity|intro H; injection H; auto 10].
  - rewrite forall2_eq. destruct (elements s), (elements s'); cbn.
    split; [intros [[[[-> ->] ->] ->] ->]; reflexivity|intro H; injection H; auto 10].
Qed.

Definition data_sized (d : Data) : Prop :=
  Forall size_ok (real_tags (d_header d)) /\ Forall (fun e => Forall size_ok (de_data e)) (d_entries d).

Lemma zlen_dec : forall A (P : A -> A -> Prop) l1 l2, (zlen l1 = zlen l2) /\ Forall2 P l1 l2 <-> Forall2 P l1 l2.
Proof.
  intros A P l1 l2. split; [tauto|]. intro F. split; [|exact F]. unfold zlen. f_equal. clear - F. induction F; [reflexivity|]. cbn. f_equal. assumption.
Qed.

Lemma data_dec : forall npe l l', Forall data_sized l -> Forall data_sized l' ->
  decides (assert_same_data npe l l') (Forall2 (alike_data npe) l l').
Proof.
  intros npe l l' S1 S2. eapply dec_iff; [|apply zlen_dec]. unfold assert_same_data. apply dec_require; [apply Z.eqb_eq|].
  intro E. rewrite Forall_forall in S1, S2. apply each2_iff; [reflexivity|exact E|]. intros d d' I1 I2.
  destruct (S1 d I1) as [R1 D1], (S2 d' I2) as [R2 D2]. eapply dec_iff.
  - cbv zeta. apply dec_require.
    + rewrite !Bool.andb_true_iff, (vec_eq_iff _ _ eq), forall2_eq, dbls_eq, ints_eq, Z.eqb_eq; [reflexivity|assumption..|].
      intros. apply bytes_eqb_eq.
    + intros [_ L]. rewrite Forall_forall in D1, D2. apply (each2_iff _ _ (alike_entry npe)); [reflexivity|exact L|].
      intros e e' J1 J2. apply dec_ok. unfold alike_entry.
      rewrite !Bool.andb_true_iff, Bool.orb_true_iff, !Z.eqb_eq, dbls_eq by auto.
      destruct npe; cbn; intuition congruence.
  - unfold alike_data. rewrite <- (zlen_dec _ (alike_entry npe)). tauto.
Qed.

Lemma curves_dec : forall c s s',
  (nanospline c = true -> Forall (fun k => Forall size_ok (cv_data k)) (curves s) /\
                          Forall (fun k => Forall size_ok (cv_data k)) (curves s')) ->
  decides (assert_same_curves c s s') (nanospline c = true -> Forall2 alike_curve (curves s) (curves s')).
Proof.
  intros c s s' S. unfold assert_same_curves. destruct (nanospline c).
  - destruct (S eq_refl) as [S1 S2]. rewrite Forall_forall in S1, S2. eapply dec_iff; [|split; [intros H _; exact H|auto]].
    eapply dec_iff; [|apply zlen_dec]. apply dec_require; [apply Z.eqb_eq|]. intro E. apply each2_iff; [reflexivity|exact E|].
    intros k k' I1 I2. apply dec_ok. unfold alike_curve. rewrite !Bool.andb_true_iff, !Z.eqb_eq, dbls_eq by auto. tauto.
  - left. split; [reflexivity|discriminate].
Qed.

Lemma same_dec : forall c s s', counted s -> counted s' ->
  (zlen (n_blocks (nodes s)) = zlen (n_blocks (nodes s')) ->
   Forall (fun b => Forall size_ok (nb_data b)) (n_blocks (nodes s)) /\
   Forall (fun b => Forall size_ok (nb_data b)) (n_blocks (nodes s'))) ->
  Forall data_sized (node_data s ++ element_data s ++ element_node_data s) ->
  Forall data_sized (node_data s' ++ element_data s' ++ element_node_data s') ->
  (nanospline c = true -> Forall (fun k => Forall size_ok (cv_data k)) (curves s) /\
                          Forall (fun k => Forall size_ok (cv_data k)) (curves s')) ->
  decides (assert_same c s s') (alike (nanospline c) s s').
Proof.
  intros c s s' C1 C2 N D1 D2 K. rewrite !Forall_app in D1, D2. destruct D1 as (D1 & D3 & D5), D2 as (D2 & D4 & D6).
  eapply dec_iff.
  - unfold assert_same. apply dec_both; [apply nodes_dec; assumption|]. apply dec_both; [apply elements_dec; assumption|].
    apply dec_both; [apply data_dec; assumption|]. apply dec_both; [apply data_dec; assumption|].
    apply dec_both; [apply data_dec; assumption|]. apply curves_dec; assumption.
  - split; [intros ((H1 & H2) & H3 & H4 & H5 & H6 & H7); constructor; assumption|intros []; tauto].
Qed.

Lemma compared_parts : forall ext s, Forall size_ok (compared ext s) ->
  Forall (fun b => Forall size_ok (nb_data b)) (n_blocks (nodes s)) /\
  Forall data_sized (node_data s ++ element_data s ++ element_node_data s) /\
  (ext = true -> Forall (fun k => Forall size_ok (cv_data k)) (curves s)).
Proof.
  intros ext s H. unfold compared in H. rewrite !Forall_app, !Forall_flat_map in H. destruct H as (H1 & H2 & H3).
  split; [exact H1|]. split.
  - eapply Forall_impl; [|exact H2]. intros d Hd. unfold data_doubles in Hd. rewrite Forall_app, Forall_flat_map in Hd. exact Hd.
  - intros ->. rewrite Forall_flat_map in H3. exact H3.
Qed.

Lemma same_decides : forall c s s', counted s -> counted s' ->
  Forall size_ok (compared (nanospline c) s) -> Forall size_ok (compared (nanospline c) s') ->
  decides (assert_same c s s') (alike (nanospline c) s s').
Proof.
  intros c s s' C1 C2 H1 H2. apply compared_parts in H1, H2. destruct H1 as (A1 & A2 & A3), H2 as (B1 & B2 & B3).
  apply same_dec; auto.
Qed.
