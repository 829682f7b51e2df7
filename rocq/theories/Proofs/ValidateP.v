(** What validate_spec accepts, rejects, and where it divides by zero. *)

From Verif Require Export Spec.Valid Model.Validate Proofs.BytesP Proofs.WriteP.
Ltac Zify.zify_post_hook ::= idtac.

(** ** Loops of checks *)

Lemma oseq_ok : forall (x y : outcome unit), oseq x y = Ok tt <-> x = Ok tt /\ y = Ok tt.
Proof.
  intros x y. destruct x as [[]| | | |]; cbn; split; try discriminate; try (intros [H _]; discriminate).
  - auto.
  - intros [_ H]; exact H.
Qed.

Lemma oseq_undef : forall (x y : outcome unit) u,
  oseq x y = Undef u <-> x = Undef u \/ (x = Ok tt /\ y = Undef u).
Proof.
  intros x y u. destruct x as [[]| | | |]; cbn; split; auto; try discriminate;
    try (intros [H|[H H2]]; congruence); auto.
Qed.

Lemma assert_ok : forall b m, ASSERT b m = Ok tt <-> b = true.
Proof. intros [] m; cbn; split; congruence. Qed.

Lemma assert_undef : forall b m u, ASSERT b m = Undef u <-> False.
Proof. intros [] m u; cbn; split; try discriminate; tauto. Qed.

Lemma ofor_ok : forall A (f : A -> outcome unit) l, ofor f l = Ok tt <-> Forall (fun x => f x = Ok tt) l.
Proof.
  intros A f l. induction l as [|x l IH]; cbn [ofor]; [split; auto|].
  rewrite oseq_ok, IH, Forall_cons_iff. reflexivity.
Qed.

Lemma ofor_undef : forall A (f : A -> outcome unit) l u,
  ofor f l = Undef u <->
  exists a x b, l = a ++ x :: b /\ Forall (fun x => f x = Ok tt) a /\ f x = Undef u.
Proof.
  intros A f l u. induction l as [|y l IH]; cbn [ofor].
  - split; [discriminate|]. intros ([|] & ? & ? & H & _); discriminate H.
  - rewrite oseq_undef, IH. split.
    + intros [H|[H (a & x & b & -> & Ha & Hx)]].
      * exists [], y, l. auto.
      * exists (y :: a), x, b. auto.
    + intros ([|z a] & x & b & E & Ha & Hx); cbn [app] in E; injection E as -> ->.
      * auto.
      * right. inversion Ha; subst. split; [assumption|]. exists a, x, b. auto.
Qed.

Lemma ofor_gen : forall A (l pre : list A) (f : Z -> A -> outcome unit),
  ofor (fun i => obind (at_ (pre ++ l) i) (f i)) (map Z.of_nat (seq (List.length pre) (List.length l))) =
  ofor (fun p => f (fst p) (snd p)) (combine (map Z.of_nat (seq (List.length pre) (List.length l))) l).
Proof.
  intros A l. induction l as [|x l IH]; intros pre f; [reflexivity|].
  cbn [List.length seq map ofor combine fst snd].
  rewrite nth_error_at at 1. rewrite nth_error_app2 by lia. rewrite Nat.sub_diag.
  cbn [nth_error obind]. f_equal.
  specialize (IH (pre ++ [x]) f). rewrite app_length in IH. cbn [List.length] in IH.
  rewrite Nat.add_1_r, <- app_assoc in IH. exact IH.
Qed.

Lemma ofor_combine : forall A B (f : A -> outcome unit) (l : list A) (l2 : list B),
  List.length l2 = List.length l -> ofor (fun p => f (snd p)) (combine l2 l) = ofor f l.
Proof.
  intros A B f l. induction l as [|x l IH]; intros [|y l2] H; try discriminate; [reflexivity|].
  cbn [combine ofor snd]. rewrite IH; [reflexivity|]. injection H; auto.
Qed.

Lemma ofor_at : forall A (l : list A) f n, n = zlen l ->
  ofor (fun i => obind (at_ l i) f) (iota n) = ofor f l.
Proof.
  intros A l f n ->. rewrite iota_zlen. etransitivity; [exact (ofor_gen A l [] (fun _ => f))|].
  cbn [List.length]. apply ofor_combine. rewrite map_length, seq_length. reflexivity.
Qed.

(** Nothing but success, CorruptData and undefined behaviour. *)
Definition check (x : outcome unit) : Prop :=
  x = Ok tt \/ (exists m, x = Throw (CorruptData m)) \/ exists u, x = Undef u.

Lemma check_assert : forall b m, check (ASSERT b m).
Proof. intros [] m; [left|right; left; eexists]; reflexivity. Qed.

Lemma check_seq : forall x y, check x -> check y -> check (oseq x y).
Proof.
  intros x y [ -> |[ [m ->] |[u -> ]]] Hy; cbn; auto.
  - right; left; exists m; reflexivity.
  - right; right; exists u; reflexivity.
Qed.

Lemma check_for : forall A (f : A -> outcome unit) l, (forall x, check (f x)) -> check (ofor f l).
Proof.
  intros A f l H. induction l as [|x l IH]; cbn [ofor]; [left; reflexivity|]. apply check_seq; auto.
Qed.

Lemma check_at : forall A (l : list A) i f, (forall x, check (f x)) -> check (obind (at_ l i) f).
Proof.
  intros A l i f H. unfold at_. destruct (i <? 0); cbn; [right; right; eexists; reflexivity|].
  destruct (nth_error l (Z.to_nat i)); cbn; auto. right; right; eexists; reflexivity.
Qed.

Lemma check_validate : forall s, check (validate_spec s).
Proof.
  intro s. unfold validate_spec.
  repeat first [apply check_seq | apply check_assert].
  - apply check_for. intro i. apply check_at. intro b. unfold validate_node_block.
    apply check_seq; [apply check_assert|]. apply check_seq.
    + apply check_for. intro j. apply check_at. intro t. apply check_seq; apply check_assert.
    + destruct (0 <? nb_parametric b); [|apply check_assert].
      destruct (INT_MAX <? 3 + nb_dim b); [right; right; eexists; reflexivity|apply check_assert].
  - apply check_for. intro i. apply check_at. intro b. unfold validate_element_block.
    destruct (eb_num b =? 0); [right; right; eexists; reflexivity|].
    destruct (zlen (eb_data b) / eb_num b =? 0); [right; right; eexists; reflexivity|].
    apply check_seq; [apply check_assert|]. apply check_for. intro j. apply check_at. intro x.
    destruct (j mod _ =? 0); apply check_seq; apply check_assert.
Qed.

(** ** Blocks *)

Lemma range_ok : forall lo hi t m m',
  oseq (ASSERT (lo <=? t) m) (ASSERT (t <=? hi) m') = Ok tt <-> lo <= t <= hi.
Proof. intros. rewrite oseq_ok, !assert_ok, !Z.leb_le. reflexivity. Qed.

Lemma range_undef : forall lo hi t m m' u,
  oseq (ASSERT (lo <=? t) m) (ASSERT (t <=? hi) m') = Undef u <-> False.
Proof. intros. rewrite oseq_undef, !assert_undef. tauto. Qed.

Lemma tags_ok : forall s b, nb_num b = zlen (nb_tags b) ->
  ofor (fun j => obind (at_ (nb_tags b) j) (fun t =>
    oseq (ASSERT (n_min (nodes s) <=? t) "Node tag < min node tag.") (ASSERT (t <=? n_max (nodes s)) "Node tag > max node tag."))) (iota (nb_num b)) = Ok tt <->
  Forall (node_range s) (nb_tags b).
Proof.
  intros s b H. rewrite ofor_at by exact H. rewrite ofor_ok.
  split; apply Forall_impl; intros t; apply range_ok.
Qed.

Lemma tags_undef : forall s b u, nb_num b = zlen (nb_tags b) ->
  ofor (fun j => obind (at_ (nb_tags b) j) (fun t =>
    oseq (ASSERT (n_min (nodes s) <=? t) "Node tag < min node tag.") (ASSERT (t <=? n_max (nodes s)) "Node tag > max node tag."))) (iota (nb_num b)) = Undef u <->
  False.
Proof.
  intros s b u H. rewrite ofor_at by exact H. rewrite ofor_undef.
  split; [|tauto]. intros (? & ? & ? & _ & _ & E). exact (proj1 (range_undef _ _ _ _ _ _) E).
Qed.

Lemma size_mult : forall n k, to_size (n * to_size k) = (n * k) mod 2 ^ 64.
Proof. intros. unfold to_size. apply Zmult_mod_idemp_r. Qed.

Lemma node_block_valid : forall s b,
  validate_node_block (nodes s) b = Ok tt <-> valid_node_block s b /\ addable b.
Proof.
  intros s b. unfold validate_node_block. rewrite !oseq_ok, assert_ok, Z.eqb_eq. split.
  - intros (L & T & D). symmetry in L. rewrite (tags_ok s b L) in T.
    destruct (Z.ltb_spec 0 (nb_parametric b)) as [P|P].
    + destruct (Z.ltb_spec INT_MAX (3 + nb_dim b)); [discriminate|].
      rewrite assert_ok, Z.eqb_eq, size_mult in D. split; [|intro; unfold INT_MAX in *; lia].
      constructor; auto. rewrite (proj2 (Z.ltb_lt _ _) P), <- L. exact D.
    + rewrite assert_ok, Z.eqb_eq in D. split; [|intro; lia].
      constructor; auto. rewrite (proj2 (Z.ltb_ge _ _) P), <- L. exact D.
  - intros ([L T D] & A). split; [congruence|]. rewrite (tags_ok s b L). split; [exact T|].
    destruct (Z.ltb_spec 0 (nb_parametric b)) as [P|P].
    + specialize (A P). destruct (Z.ltb_spec INT_MAX (3 + nb_dim b)); [unfold INT_MAX in *; lia|].
      rewrite assert_ok, Z.eqb_eq, size_mult, L. exact D.
    + rewrite assert_ok, Z.eqb_eq, L. exact D.
Qed.

Lemma node_block_undef : forall s b u,
  validate_node_block (nodes s) b = Undef u <->
  u = SignedOverflow /\ nb_num b = zlen (nb_tags b) /\ Forall (node_range s) (nb_tags b) /\ ~ addable b.
Proof.
  intros s b u. unfold validate_node_block.
  rewrite !oseq_undef, assert_undef, assert_ok, Z.eqb_eq. split.
  - intros [[]|(L & H)]. symmetry in L. rewrite (tags_undef s b u L), (tags_ok s b L) in H.
    destruct H as [[]|(T & H)].
    destruct (Z.ltb_spec 0 (nb_parametric b)) as [P|P]; [|rewrite assert_undef in H; tauto].
    destruct (Z.ltb_spec INT_MAX (3 + nb_dim b)); [|rewrite assert_undef in H; tauto].
    injection H as <-. repeat (split; [auto|]). intro A. specialize (A P). unfold INT_MAX in *. lia.
  - intros (-> & L & T & A). right. split; [congruence|].
    right. rewrite (tags_ok s b L). split; [exact T|].
    destruct (Z.ltb_spec 0 (nb_parametric b)) as [P|P]; [|exfalso; apply A; intro; lia].
    destruct (Z.ltb_spec INT_MAX (3 + nb_dim b)); [reflexivity|].
    exfalso. apply A. intros _. unfold INT_MAX in *; lia.
Qed.

Lemma app_cut : forall A (a b c d : list A), List.length a = List.length c ->
  a ++ b = c ++ d -> a = c /\ b = d.
Proof.
  intros A a. induction a as [|x a IH]; intros b [|y c] d L H; try discriminate L; [auto|].
  cbn [app] in H. injection H as -> H. destruct (IH b c d) as [-> ->]; auto.
Qed.

(** Entries of rows. *)
Section Rows.
Context (E N : Z -> Prop).

Definition entry (w : Z) (p : Z * Z) : Prop := if fst p mod w =? 0 then E (snd p) else N (snd p).
Definition indexed (k : nat) (l : list Z) : list (Z * Z) :=
  combine (map Z.of_nat (seq k (List.length l))) l.

Lemma indexed_cons : forall k x l, indexed k (x :: l) = (Z.of_nat k, x) :: indexed (S k) l.
Proof. reflexivity. Qed.

Lemma indexed_app : forall a k l, indexed k (a ++ l) = indexed k a ++ indexed (k + List.length a) l.
Proof.
  induction a as [|x a IH]; intros k l; cbn [app List.length].
  - rewrite Nat.add_0_r. reflexivity.
  - rewrite !indexed_cons, IH. cbn [app]. f_equal. f_equal. f_equal. lia.
Qed.

Lemma tail_entries : forall w l k, 0 < w ->
  (exists q, 0 <= q /\ Z.of_nat k = q * w + 1) -> zlen l + 1 <= w ->
  (Forall (entry w) (indexed k l) <-> Forall N l).
Proof.
  intros w l k W (q & Q & K).
  assert (G : forall l i, (i + List.length l <= Z.to_nat w)%nat -> (0 < i)%nat ->
     Z.of_nat k = q * w + 1 ->
     (Forall (entry w) (indexed (k - 1 + i) l) <-> Forall N l)).
  { clear l. intros l. induction l as [|x l IH]; intros i B P K'; [split; constructor|].
    rewrite indexed_cons, !Forall_cons_iff. cbn [List.length] in B.
    assert (M : (Z.of_nat (k - 1 + i) mod w =? 0) = false).
    { apply Z.eqb_neq. replace (Z.of_nat (k - 1 + i)) with (Z.of_nat i + q * w) by lia.
      rewrite Z.mod_add by lia. rewrite Z.mod_small by lia. lia. }
    unfold entry at 1. cbn [fst snd]. rewrite M.
    replace (S (k - 1 + i))%nat with (k - 1 + S i)%nat by lia.
    rewrite (IH (S i)) by lia. reflexivity. }
  intro L. assert (k <> 0)%nat by nia.
  replace k with (k - 1 + 1)%nat at 1 by lia. apply G; try lia. unfold zlen in L. lia.
Qed.

Lemma rows_entries : forall w (n : nat) l k, 0 < w ->
  (exists q, 0 <= q /\ Z.of_nat k = q * w) -> zlen l = Z.of_nat n * w ->
  (Forall (entry w) (indexed k l) <->
   exists rows : list (Z * list Z), l = flat_map (fun r => fst r :: snd r) rows /\
     Forall (fun r => zlen (snd r) + 1 = w /\ E (fst r) /\ Forall N (snd r)) rows).
Proof.
  intros w n. induction n as [|n IH]; intros l k W (q & Q & K) L.
  - destruct l as [|x l]; [|rewrite zlen_cons in L; pose proof (zlen_nonneg _ l); lia].
    split; [|intros _; constructor]. intros _. exists []. split; constructor.
  - destruct l as [|x l].
    { rewrite zlen_nil in L. nia. }
    rewrite zlen_cons in L.
    assert (B : (Z.to_nat (w - 1) <= List.length l)%nat) by (unfold zlen in L; nia).
    rewrite indexed_cons, Forall_cons_iff.
    assert (M : entry w (Z.of_nat k, x) <-> E x).
    { unfold entry. cbn [fst snd]. rewrite K, Z.mod_mul by lia. reflexivity. }
    rewrite M. 
    pose proof (firstn_skipn (Z.to_nat (w - 1)) l) as C.
    set (a := firstn (Z.to_nat (w - 1)) l) in *. set (b := skipn (Z.to_nat (w - 1)) l) in *.
    assert (La : List.length a = Z.to_nat (w - 1)) by (apply firstn_length_le; exact B).
    assert (Lb : zlen b = Z.of_nat n * w).
    { unfold b, zlen. rewrite skipn_length. unfold zlen in L. nia. }
    clearbody a b. rewrite <- C at 1. rewrite indexed_app, Forall_app.
    rewrite tail_entries; [|exact W|exists q; split; lia|unfold zlen; lia].
    rewrite (IH b (S k + List.length a)%nat W); [|exists (q + 1); split; nia|exact Lb].
    split.
    + intros (Hx & Ha & rows & Eb & Hr). exists ((x, a) :: rows). split.
      * cbn [flat_map fst snd app]. rewrite <- Eb, C. reflexivity.
      * constructor; [|exact Hr]. cbn [fst snd]. split; [unfold zlen; lia|]. auto.
    + intros ([|[y r] rows] & El & Hr); cbn [flat_map fst snd app] in El; [discriminate|].
      inversion Hr as [|? ? (Hw & Hy & Hn) Hr']; subst. cbn [fst snd] in *.
      injection El as -> El.
      assert (Er : a = r /\ b = flat_map (fun r => fst r :: snd r) rows).
      { apply app_cut in El; [exact El|]. unfold zlen in *. lia. }
      destruct Er as [-> Er]. split; [exact Hy|]. split; [exact Hn|].
      exists rows. split; [exact Er|]. exact Hr'.
Qed.
End Rows.

Lemma element_block_valid : forall s b, countable b ->
  (validate_element_block (nodes s) (elements s) b = Ok tt <-> valid_element_block s b).
Proof.
  intros s b (L1 & L2). unfold validate_element_block, valid_element_block.
  destruct (Z.eqb_spec (eb_num b) 0); [lia|]. cbv zeta.
  set (w := zlen (eb_data b) / eb_num b).
  assert (W : 0 < w) by (apply Z.div_str_pos; lia).
  destruct (Z.eqb_spec w 0); [lia|].
  rewrite oseq_ok, assert_ok, Z.eqb_eq.
  rewrite iota_zlen.
  pose proof (ofor_gen Z (eb_data b) [] (fun j x => if j mod w =? 0
        then oseq (ASSERT (e_min (elements s) <=? x) "Element tag < min element tag.") (ASSERT (x <=? e_max (elements s)) "Element tag > max element tag.")
        else oseq (ASSERT (n_min (nodes s) <=? x) "Node tag in element < min node tag.") (ASSERT (x <=? n_max (nodes s)) "Node tag in element > max node tag."))) as G.
  cbn [List.length app] in G. fold (indexed 0 (eb_data b)) in G. rewrite G, ofor_ok. clear G.
  assert (F : Forall (fun x : Z * Z => (if fst x mod w =? 0
        then oseq (ASSERT (e_min (elements s) <=? snd x) "Element tag < min element tag.") (ASSERT (snd x <=? e_max (elements s)) "Element tag > max element tag.")
        else oseq (ASSERT (n_min (nodes s) <=? snd x) "Node tag in element < min node tag.") (ASSERT (snd x <=? n_max (nodes s)) "Node tag in element > max node tag.")) = Ok tt)
      (indexed 0 (eb_data b)) <->
    Forall (entry (element_range s) (node_range s) w) (indexed 0 (eb_data b))).
  { split; apply Forall_impl; intros [j x]; unfold entry; cbn [fst snd];
      destruct (j mod w =? 0); apply range_ok. }
  rewrite F.
  split.
  - intros (D & H). apply Z.mod_divide in D; [|lia]. destruct D as [q D].
    assert (0 <= q) by (pose proof (zlen_nonneg _ (eb_data b)); nia).
    apply (rows_entries _ _ w (Z.to_nat q)) in H; [exact H|exact W|exists 0; split; lia|].
    rewrite Z2Nat.id by lia. exact D.
  - intros (rows & E & H).
    assert (D : zlen (eb_data b) = zlen rows * w).
    { rewrite E. clear - H. induction H as [|r rows (Hr & _) _ IH]; [reflexivity|].
      cbn [flat_map]. rewrite zlen_app, !zlen_cons, IH. lia. }
    split; [rewrite D; apply Z.mod_mul; lia|].
    apply (rows_entries _ _ w (List.length rows)); [exact W|exists 0; split; lia|exact D|].
    exists rows. auto.
Qed.

Lemma element_block_ok : forall s b, 0 <= eb_num b ->
  (validate_element_block (nodes s) (elements s) b = Ok tt <-> valid_element_block s b /\ countable b).
Proof.
  intros s b N. split.
  - intro H. assert (C : countable b).
    { unfold validate_element_block in H. destruct (Z.eqb_spec (eb_num b) 0); [discriminate|].
      cbv zeta in H. destruct (Z.eqb_spec (zlen (eb_data b) / eb_num b) 0) as [|Q]; [discriminate|].
      split; [lia|]. destruct (Z.le_gt_cases (eb_num b) (zlen (eb_data b))); [assumption|].
      exfalso. apply Q. apply Z.div_small. pose proof (zlen_nonneg _ (eb_data b)). lia. }
    split; [|exact C]. apply element_block_valid; assumption.
  - intros (V & C). apply element_block_valid; assumption.
Qed.

Lemma element_block_undef : forall s b u, 0 <= eb_num b ->
  (validate_element_block (nodes s) (elements s) b = Undef u <-> u = DivByZero /\ ~ countable b).
Proof.
  intros s b u N. unfold validate_element_block, countable.
  destruct (Z.eqb_spec (eb_num b) 0) as [Z0|Z0].
  { split; [intro H; injection H as <-; split; [reflexivity|lia]|intros (-> & _); reflexivity]. }
  cbv zeta. destruct (Z.eqb_spec (zlen (eb_data b) / eb_num b) 0) as [Q|Q].
  { split; [intro H; injection H as <-; split; [reflexivity|]|intros (-> & _); reflexivity].
    intros (_ & L). apply Z.div_small_iff in Q; lia. }
  split.
  - rewrite oseq_undef, assert_undef. intros [[]|(_ & H)]. apply ofor_undef in H.
    destruct H as (l & j & r & E & _ & H).
    assert (J : 0 <= j < zlen (eb_data b)).
    { apply in_iota. rewrite E. apply in_or_app. right. left. reflexivity. }
    destruct (at_some _ _ _ J) as (x & Ex & _). rewrite Ex in H. cbn [obind] in H.
    destruct (j mod _ =? 0); apply range_undef in H; destruct H.
  - intros (_ & C). exfalso. apply C. split; [lia|].
    destruct (Z.le_gt_cases (eb_num b) (zlen (eb_data b))); [assumption|].
    exfalso. apply Q. apply Z.div_small. pose proof (zlen_nonneg _ (eb_data b)). lia.
Qed.

(** ** The whole spec *)

Lemma heads_ok : forall s (x : outcome unit) r, (forall b, r <> Throw b) ->
  (oseq (ASSERT (n_num_blocks (nodes s) =? zlen (n_blocks (nodes s))) "Inconsistent entity blocks in nodes.")
  (oseq (ASSERT (e_num_blocks (elements s) =? zlen (e_blocks (elements s))) "Inconsistent entity blocks in elements.")
  (oseq (ASSERT (n_min (nodes s) <=? n_max (nodes s)) "Min node tag > max node tag.")
  (oseq (ASSERT (e_min (elements s) <=? e_max (elements s)) "Min element tag > max element tag.") x))) = r <-> valid_heads s /\ x = r).
Proof.
  intros s x r Hr.
  destruct (Z.eqb_spec (n_num_blocks (nodes s)) (zlen (n_blocks (nodes s)))) as [A|A];
    cbn; [|split; [intro E; destruct (Hr _ (eq_sym E))|intros ([] & _); congruence]].
  destruct (Z.eqb_spec (e_num_blocks (elements s)) (zlen (e_blocks (elements s)))) as [B|B];
    cbn; [|split; [intro E; destruct (Hr _ (eq_sym E))|intros ([] & _); congruence]].
  destruct (Z.leb_spec (n_min (nodes s)) (n_max (nodes s))) as [C|C];
    cbn; [|split; [intro E; destruct (Hr _ (eq_sym E))|intros ([] & _); lia]].
  destruct (Z.leb_spec (e_min (elements s)) (e_max (elements s))) as [D|D];
    cbn; [|split; [intro E; destruct (Hr _ (eq_sym E))|intros ([] & _); lia]].
  split; [|intros (_ & H); exact H]. intro H. split; [constructor; assumption|exact H].
Qed.

Lemma Forall_iff : forall A (P Q : A -> Prop) l, (forall x, In x l -> (P x <-> Q x)) ->
  (Forall P l <-> Forall Q l).
Proof.
  intros A P Q l H. rewrite !Forall_forall. split; intros F x I; apply H; auto.
Qed.

Lemma node_loop : forall s, valid_heads s ->
  ofor (fun i => obind (at_ (n_blocks (nodes s)) i) (validate_node_block (nodes s)))
    (iota (n_num_blocks (nodes s))) = ofor (validate_node_block (nodes s)) (n_blocks (nodes s)).
Proof. intros s H. apply ofor_at. apply vh_nodes, H. Qed.

Lemma element_loop : forall s, valid_heads s ->
  ofor (fun i => obind (at_ (e_blocks (elements s)) i) (validate_element_block (nodes s) (elements s)))
    (iota (e_num_blocks (elements s))) =
  ofor (validate_element_block (nodes s) (elements s)) (e_blocks (elements s)).
Proof. intros s H. apply ofor_at. apply vh_elements, H. Qed.

Lemma nodes_valid : forall s,
  ofor (validate_node_block (nodes s)) (n_blocks (nodes s)) = Ok tt <->
  Forall (fun b => valid_node_block s b /\ addable b) (n_blocks (nodes s)).
Proof. intro s. rewrite ofor_ok. apply Forall_iff. intros b _. apply node_block_valid. Qed.

Lemma elements_valid : forall s bs, Forall (fun b => 0 <= eb_num b) bs ->
  (Forall (fun b => validate_element_block (nodes s) (elements s) b = Ok tt) bs <->
  Forall (fun b => valid_element_block s b /\ countable b) bs).
Proof.
  intros s bs T. apply Forall_iff. intros b Hb. apply element_block_ok.
  revert b Hb. apply Forall_forall. exact T.
Qed.

Lemma and_iff_under : forall A B C : Prop, (A -> (B <-> C)) -> (A /\ B <-> A /\ C).
Proof. tauto. Qed.

Lemma validate_ok : forall s, typed s ->
  (validate_spec s = Ok tt <->
   valid_heads s /\ Forall (fun b => valid_node_block s b /\ addable b) (n_blocks (nodes s)) /\
   Forall (fun b => valid_element_block s b /\ countable b) (e_blocks (elements s))).
Proof.
  intros s T. unfold validate_spec. cbv zeta. rewrite heads_ok by discriminate.
  apply and_iff_under. intro H.
  rewrite node_loop, element_loop by exact H. rewrite oseq_ok, nodes_valid, ofor_ok, elements_valid by exact T.
  reflexivity.
Qed.

Lemma validate_undef : forall s u, typed s ->
  (validate_spec s = Undef u <->
   (u = SignedOverflow /\ overflows s) \/ (u = DivByZero /\ divides_by_zero s)).
Proof.
  intros s u T. unfold validate_spec. cbv zeta. rewrite heads_ok by discriminate.
  assert (TE : forall l b r, e_blocks (elements s) = l ++ b :: r ->
     Forall (fun b => 0 <= eb_num b) l /\ 0 <= eb_num b).
  { intros l b r E. unfold typed in T. rewrite E in T. apply Forall_app in T. destruct T as [T1 T2].
    inversion T2; subst. auto. }
  split.
  - intros (H & X). rewrite node_loop, element_loop in X by exact H.
    rewrite oseq_undef, nodes_valid, !ofor_undef in X.
    destruct X as [(l & b & r & E & Hl & Hb)|(N & l & b & r & E & Hl & Hb)].
    + left. apply node_block_undef in Hb. destruct Hb as (-> & Hb).
      split; [reflexivity|]. split; [exact H|]. exists l, b, r. split; [exact E|]. split; [|exact Hb].
      eapply Forall_impl; [|exact Hl]. intros x. apply node_block_valid.
    + right. destruct (TE _ _ _ E) as [T1 T2].
      apply element_block_undef in Hb; [|exact T2]. destruct Hb as (-> & Hb).
      split; [reflexivity|]. split; [exact H|]. split; [exact N|].
      exists l, b, r. split; [exact E|]. split; [|exact Hb].
      apply elements_valid; assumption.
  - intros [(-> & H & l & b & r & E & Hl & Hb)|(-> & H & N & l & b & r & E & Hl & Hb)];
      (split; [exact H|]); rewrite node_loop, element_loop by exact H;
      rewrite oseq_undef, nodes_valid, !ofor_undef.
    + left. exists l, b, r. split; [exact E|]. split.
      * eapply Forall_impl; [|exact Hl]. intros x. apply node_block_valid.
      * apply node_block_undef. auto.
    + right. split; [exact N|]. destruct (TE _ _ _ E) as [T1 T2].
      exists l, b, r. split; [exact E|]. split.
      * apply elements_valid; assumption.
      * apply element_block_undef; auto.
Qed.
