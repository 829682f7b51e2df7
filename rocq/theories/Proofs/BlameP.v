(** Which check of validate_spec fails. *)

From Verif Require Import Model.Validate Spec.Blame Proofs.ValidateP.

Ltac Zify.zify_post_hook ::= idtac.

Definition blames (x : outcome unit) (l : list claim) : Prop :=
  (x = Ok tt -> Forall fst l) /\
  (forall e, x = Throw e -> exists m, e = CorruptData (str m) /\ first_false l m).

Lemma blames_assert : forall b (P : Prop) m, (b = true <-> P) -> blames (ASSERT b m) [(P, m)].
Proof.
  intros b P m H. unfold ASSERT. destruct b; split.
  - intros _. constructor; [apply H; reflexivity|constructor].
  - discriminate.
  - discriminate.
  - intros e E. injection E as <-. exists m. split; [reflexivity|]. exists [], P, []. split; [reflexivity|].
    split; [constructor|]. intro Q. apply H in Q. discriminate.
Qed.

Lemma first_app : forall l l' m, first_false l m -> first_false (l ++ l') m.
Proof.
  intros l l' m (b & P & a & -> & F & N). exists b, P, (a ++ l'). rewrite <- app_assoc. auto.
Qed.

Lemma first_after : forall l l' m, Forall fst l -> first_false l' m -> first_false (l ++ l') m.
Proof.
  intros l l' m H (b & P & a & -> & F & N). exists (l ++ b), P, a. rewrite <- app_assoc.
  split; [reflexivity|]. split; [|exact N]. rewrite Forall_app. auto.
Qed.

Lemma blames_seq : forall x y l l', blames x l -> (Forall fst l -> blames y l') -> blames (oseq x y) (l ++ l').
Proof.
  intros x y l l' (A & B) Y. unfold oseq. destruct x as [[]|e|u| |]; cbn [obind].
  - destruct (Y (A eq_refl)) as (C & D). split.
    + intro H. rewrite Forall_app. auto.
    + intros e H. destruct (D e H) as (m & -> & F). exists m. split; [reflexivity|]. apply first_after; auto.
  - split; [discriminate|]. intros e' H. injection H as <-. destruct (B e eq_refl) as (m & -> & F).
    exists m. split; [reflexivity|]. apply first_app. exact F.
  - split; discriminate.
  - split; discriminate.
  - split; discriminate.
Qed.

Lemma blames_for : forall A (f : A -> outcome unit) g l, (forall a, In a l -> blames (f a) (g a)) -> blames (ofor f l) (flat_map g l).
Proof.
  intros A f g l. induction l as [|a l IH]; intro H; cbn [ofor flat_map].
  - split; [constructor|discriminate].
  - apply blames_seq; [apply H; left; reflexivity|]. intros _. apply IH. intros x X. apply H. right. exact X.
Qed.

Lemma blames_range : forall lo hi t m m',
  blames (oseq (ASSERT (lo <=? t) m) (ASSERT (t <=? hi) m')) [(lo <= t, m); (t <= hi, m')].
Proof.
  intros. apply (blames_seq _ _ [(lo <= t, m)] [(t <= hi, m')]); [|intros _]; apply blames_assert; apply Z.leb_le.
Qed.

Lemma blames_undef : forall u l, blames (Undef u) l.
Proof. split; discriminate. Qed.

Lemma blames_node : forall s b, blames (validate_node_block (nodes s) b) (node_claims s b).
Proof.
  intros s b. unfold validate_node_block, node_claims.
  apply blames_seq; [apply blames_assert; rewrite Z.eqb_eq; split; congruence|].
  intro H. inversion H as [|? ? N _]; subst. cbn [fst] in N.
  apply blames_seq.
  - rewrite ofor_at by exact N. apply blames_for. intros t _. apply blames_range.
  - intros _. destruct (0 <? nb_parametric b).
    + destruct (INT_MAX <? 3 + nb_dim b); [apply blames_undef|].
      apply blames_assert. rewrite Z.eqb_eq, size_mult, N. reflexivity.
    + apply blames_assert. rewrite Z.eqb_eq, N. reflexivity.
Qed.

Lemma mod_next : forall j w, 0 <= j -> 0 < w -> (j + 1) mod w = if j mod w + 1 =? w then 0 else j mod w + 1.
Proof.
  intros j w J W. pose proof (Z.mod_pos_bound j w W). pose proof (Z.div_mod j w ltac:(lia)).
  destruct (Z.eqb_spec (j mod w + 1) w).
  - symmetry. apply Z.mod_unique with (q := j / w + 1); [left; lia|]. nia.
  - symmetry. apply Z.mod_unique with (q := j / w); [left; lia|]. lia.
Qed.

Lemma blames_rows : forall s w l k, 0 < w ->
  blames (ofor (fun p => if fst p mod w =? 0
     then oseq (ASSERT (e_min (elements s) <=? snd p) "Element tag < min element tag.") (ASSERT (snd p <=? e_max (elements s)) "Element tag > max element tag.")
     else oseq (ASSERT (n_min (nodes s) <=? snd p) "Node tag in element < min node tag.") (ASSERT (snd p <=? n_max (nodes s)) "Node tag in element > max node tag.")) (indexed k l))
    (row_claims s w (Z.of_nat k mod w) l).
Proof.
  intros s w l. induction l as [|x l IH]; intros k W.
  - split; [constructor|discriminate].
  - rewrite indexed_cons. cbn [ofor row_claims fst snd]. apply blames_seq.
    + destruct (Z.of_nat k mod w =? 0); apply blames_range.
    + intros _. rewrite <- mod_next by lia. replace (Z.of_nat k + 1) with (Z.of_nat (S k)) by lia. apply IH. exact W.
Qed.

Lemma blames_element : forall s b, 0 <= eb_num b ->
  blames (validate_element_block (nodes s) (elements s) b) (element_claims s b).
Proof.
  intros s b N. unfold validate_element_block, element_claims.
  destruct (Z.eqb_spec (eb_num b) 0); [apply blames_undef|]. cbv zeta.
  destruct (Z.eqb_spec (zlen (eb_data b) / eb_num b) 0) as [|Q]; [apply blames_undef|].
  set (w := zlen (eb_data b) / eb_num b) in *.
  assert (W : 0 < w).
  { pose proof (Z.div_pos (zlen (eb_data b)) (eb_num b) (zlen_nonneg _ _) ltac:(lia)). fold w in H. lia. }
  match goal with |- blames _ (?c :: ?l) => change (c :: l) with ([c] ++ l) end.
  apply blames_seq.
  - apply blames_assert. rewrite Z.eqb_eq. apply Z.mod_divide. lia.
  - intros _. rewrite iota_zlen.
    pose proof (ofor_gen Z (eb_data b) [] (fun j x => if j mod w =? 0
        then oseq (ASSERT (e_min (elements s) <=? x) "Element tag < min element tag.") (ASSERT (x <=? e_max (elements s)) "Element tag > max element tag.")
        else oseq (ASSERT (n_min (nodes s) <=? x) "Node tag in element < min node tag.") (ASSERT (x <=? n_max (nodes s)) "Node tag in element > max node tag."))) as G.
    cbn [List.length app] in G. fold (indexed 0 (eb_data b)) in G. rewrite G. clear G.
    exact (blames_rows s w (eb_data b) 0 W).
Qed.

Lemma blames_validate : forall s, typed s -> blames (validate_spec s) (claims s).
Proof.
  intros s T. unfold validate_spec, claims, head_claims.
  cbn [app]. 
  match goal with |- blames _ (?a :: ?b :: ?c :: ?d :: ?l) =>
    change (a :: b :: c :: d :: l) with ([a] ++ [b] ++ [c] ++ [d] ++ l) end.
  apply blames_seq; [apply blames_assert; apply Z.eqb_eq|]. intro HN. inversion HN as [|? ? N _]; subst. cbn [fst] in N.
  apply blames_seq; [apply blames_assert; apply Z.eqb_eq|]. intro HE. inversion HE as [|? ? E _]; subst. cbn [fst] in E.
  apply blames_seq; [apply blames_assert; apply Z.leb_le|]. intros _.
  apply blames_seq; [apply blames_assert; apply Z.leb_le|]. intros _.
  apply blames_seq.
  - rewrite ofor_at by exact N. apply blames_for. intros b _. apply blames_node.
  - intros _. rewrite ofor_at by exact E. apply blames_for. intros b B. apply blames_element.
    unfold typed in T. rewrite Forall_forall in T. apply T. exact B.
Qed.

Lemma first_unique : forall l m m', first_false l m -> first_false l m' -> m = m'.
Proof.
  intros l. induction l as [|[Q k] l IH]; intros m m' (b & P & a & E & F & N) (b' & P' & a' & E' & F' & N').
  - destruct b; discriminate.
  - destruct b as [|p b], b' as [|p' b']; cbn [app] in E, E'; injection E as E1 E2; injection E' as E1' E2'.
    + congruence.
    + exfalso. inversion F'; subst. cbn [fst] in *. auto.
    + exfalso. inversion F; subst. cbn [fst] in *. auto.
    + inversion F; inversion F'; subst. apply IH; [exists b, P, a|exists b', P', a']; auto.
Qed.

Lemma first_not_all : forall l m, first_false l m -> ~ Forall fst l.
Proof.
  intros l m (b & P & a & -> & _ & N) H. rewrite Forall_app in H. destruct H as [_ H]. inversion H; subst. auto.
Qed.
