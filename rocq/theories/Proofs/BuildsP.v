(** What load_msh, save_msh do in another build or with more memory. *)

From Verif Require Import Model.Save Spec.Builds Proofs.BytesP.

Ltac Zify.zify_post_hook ::= idtac.

(** Equal unless an assert failed or memory ran out. *)
Definition osame {A} (x y : outcome A) : Prop := x = Abort \/ x = Throw BadAlloc \/ y = x.
Definition same {A} (m m' : M A) : Prop := forall s, osame (m s) (m' s).

Lemma osame_refl : forall A (x : outcome A), osame x x.
Proof. intros. right. right. reflexivity. Qed.

Lemma osame_bind : forall A B (x x' : outcome A) (f f' : A -> outcome B), osame x x' ->
  (forall a, x = Ok a -> osame (f a) (f' a)) -> osame (obind x f) (obind x' f').
Proof.
  intros A B x x' f f' [->|[->| ->]] H; [left; reflexivity|right; left; reflexivity|].
  destruct x; try apply osame_refl. apply H. reflexivity.
Qed.

Lemma same_refl : forall A (m : M A), same m m.
Proof. intros A m s. apply osame_refl. Qed.

Lemma same_bind : forall A B (m m' : M A) (f f' : A -> M B), same m m' -> (forall a, same (f a) (f' a)) ->
  same (bind m f) (bind m' f').
Proof.
  intros A B m m' f f' H G s. unfold bind. destruct (H s) as [->|[->| ->]]; [left; reflexivity|right; left; reflexivity|].
  destruct (m s) as [[a s']| | | |]; try apply osame_refl. apply G.
Qed.

Lemma same_lift : forall A (x x' : outcome A), osame x x' -> same (lift x) (lift x').
Proof. intros A x x' [->|[->| ->]] s; [left; reflexivity|right; left; reflexivity|apply osame_refl]. Qed.

Lemma same_mapM : forall A B (f f' : A -> M B) l, (forall x, same (f x) (f' x)) -> same (mapM f l) (mapM f' l).
Proof.
  intros A B f f' l H. induction l as [|x l IH]; cbn [mapM]; [apply same_refl|].
  apply same_bind; [apply H|]. intro y. apply same_bind; [exact IH|]. intro. apply same_refl.
Qed.

Lemma same_iterM : forall S n (f f' : S -> M S) s, (forall x, same (f x) (f' x)) -> same (iterM n f s) (iterM n f' s).
Proof.
  intros S n f f' s H. revert s. induction n as [|n IH]; intro s; cbn [iterM]; [apply same_refl|].
  apply same_bind; [apply H|exact IH].
Qed.

Lemma same_fill : forall A cnt (f f' : A -> M A) v, (forall x, same (f x) (f' x)) -> same (fill cnt f v) (fill cnt f' v).
Proof. intros A cnt f f' v H. unfold fill. destruct (cnt =? zlen v); [apply same_mapM, H|apply same_refl]. Qed.

Lemma osame_ofold : forall A S (f f' : A -> S -> outcome S) l s, (forall x s, osame (f x s) (f' x s)) ->
  osame (ofold f l s) (ofold f' l s).
Proof.
  intros A S f f' l s H. revert s. induction l as [|x l IH]; intro s; cbn [ofold]; [apply osame_refl|].
  apply osame_bind; [apply H|intros; apply IH].
Qed.

Section Builds.
Variables c c' : cfg.
Hypothesis E : eases c c'.

Lemma same_massert : forall b, same (massert c b) (massert c' b).
Proof.
  intros b s. unfold massert. destruct E as (D & _). destruct (ndebug c).
  - rewrite D by reflexivity. apply osame_refl.
  - destruct b; [destruct (ndebug c'); apply osame_refl|left; reflexivity].
Qed.

Lemma same_good : same (assert_good c) (assert_good c').
Proof. intro s. unfold assert_good. apply same_massert. Qed.

Lemma same_hold : forall A sz n (old : list A), osame (can_hold c sz n old) (can_hold c' sz n old).
Proof.
  intros A sz n old. unfold can_hold. destruct E as (_ & _ & H).
  destruct (PTRDIFF_MAX / sz <? n); [apply osame_refl|]. destruct (n <=? zlen old); [apply osame_refl|].
  destruct (mem c <? n * sz) eqn:L; [right; left; reflexivity|]. apply Z.ltb_ge in L.
  replace (mem c' <? n * sz) with false by (symmetry; apply Z.ltb_ge; lia). apply osame_refl.
Qed.

Lemma same_resize : forall A sz (d : A) n old, osame (resize c sz d n old) (resize c' sz d n old).
Proof. intros. unfold resize. apply osame_bind; [apply same_hold|intros; apply osame_refl]. Qed.

Lemma same_emplace : forall A sz (x : A) old, osame (emplace_back c sz x old) (emplace_back c' sz x old).
Proof. intros. unfold emplace_back. apply osame_bind; [apply same_hold|intros; apply osame_refl]. Qed.

Ltac same1 :=
  match goal with
  | |- same ?m ?m => apply same_refl
  | |- osame ?m ?m => apply osame_refl
  | |- same (assert_good _) _ => apply same_good
  | |- same (massert _ _) _ => apply same_massert
  | |- same (bind _ _) _ => apply same_bind; [|intro]
  | |- same (lift _) _ => apply same_lift
  | |- osame (resize _ _ _ _ _) _ => apply same_resize
  | |- osame (can_hold _ _ _ _) _ => apply same_hold
  | |- osame (emplace_back _ _ _ _) _ => apply same_emplace
  | |- osame (obind _ _) _ => apply osame_bind; [|intros ? _]
  | |- same (mapM _ _) _ => apply same_mapM; intro
  | |- same (iterM _ _ _) _ => apply same_iterM; intro
  | |- same (fill _ _ _) _ => apply same_fill; intro
  | |- osame (ofold _ _ _) _ => apply osame_ofold; intros
  | |- context [match ?x with _ => _ end] => destruct x
  | _ => progress cbv beta zeta
  end.
Ltac same := repeat same1; auto.

Lemma same_node_ascii : forall b, same (v41_node_block_ascii c b) (v41_node_block_ascii c' b).
Proof. intro. unfold v41_node_block_ascii. same. Qed.
Lemma same_node_binary : forall b, same (v41_node_block_binary c b) (v41_node_block_binary c' b).
Proof. intro. unfold v41_node_block_binary. same. Qed.

Lemma same_resizes : forall n, osame (v22_resizes c n) (v22_resizes c' n).
Proof. intro. unfold v22_resizes. same. Qed.

Lemma same_nodes : forall spec, same (load_nodes c spec) (load_nodes c' spec).
Proof.
  intro spec. pose proof same_node_ascii. pose proof same_node_binary. pose proof same_resizes.
  unfold load_nodes. cbv zeta. match goal with |- context [v41_load_nodes_ascii c ?x] => generalize x end. intro n.
  unfold v41_load_nodes_ascii, v41_load_nodes_binary, v22_load_nodes_ascii, v22_load_nodes_binary, v22_node_ascii, v22_node_binary. same.
Qed.

Lemma same_element_ascii : forall b, same (v41_element_block_ascii c b) (v41_element_block_ascii c' b).
Proof. intro. unfold v41_element_block_ascii. same. Qed.
Lemma same_element_binary : forall b, same (v41_element_block_binary c b) (v41_element_block_binary c' b).
Proof. intro. unfold v41_element_block_binary. same. Qed.
Lemma same_22_ascii : forall st, same (v22_element_ascii c st) (v22_element_ascii c' st).
Proof. intro. unfold v22_element_ascii. same. Qed.
Lemma same_22_binary : forall t k N st, same (v22_element_binary c t k N st) (v22_element_binary c' t k N st).
Proof. intros. unfold v22_element_binary. same. Qed.
Lemma same_22_loop : forall f N st, same (v22_elements_loop f c N st) (v22_elements_loop f c' N st).
Proof.
  pose proof same_22_binary. induction f as [|f IH]; intros N st; cbn [v22_elements_loop]; [apply same_refl|]. same.
Qed.

Lemma same_elements : forall spec, same (load_elements c spec) (load_elements c' spec).
Proof.
  intro spec. pose proof same_element_ascii. pose proof same_element_binary. pose proof same_22_ascii. pose proof same_22_loop.
  unfold load_elements. cbv zeta. match goal with |- context [v41_load_elements_ascii c ?x] => generalize x end. intro n.
  unfold v41_load_elements_ascii, v41_load_elements_binary, v22_load_elements_ascii, v22_load_elements_binary.
  same. intro s. apply same_22_loop.
Qed.

Lemma same_ints : (forall o, same (ints_ascii c o) (ints_ascii c' o)) /\ (forall o, same (ints_binary c o) (ints_binary c' o)).
Proof. split; intro; unfold ints_ascii, ints_binary; same. Qed.

Lemma same_entities : forall spec, same (load_entities c spec) (load_entities c' spec).
Proof.
  intro spec. destruct same_ints as (I & J).
  unfold load_entities, v41_load_entities_ascii, v41_load_entities_binary, resize_entities, point_ascii, point_binary, entity_ascii, entity_binary.
  same.
Qed.

Lemma same_groups : forall spec, same (load_physical_groups c spec) (load_physical_groups c' spec).
Proof. intro spec. unfold load_physical_groups. same. Qed.

Lemma same_data : forall v b e, same (load_data c v b e) (load_data c' v b e).
Proof. intros. unfold load_data, load_data_header, entry_binary, entry_ascii. same. Qed.

Lemma same_ext : forall spec, same (load_curves c spec) (load_curves c' spec) /\ same (load_patches c spec) (load_patches c' spec).
Proof.
  intro spec. unfold load_curves, load_patches, load_curve, load_patch. destruct E as (_ & -> & _). split; same.
Qed.

Lemma same_dispatch : forall name spec, same (dispatch c name spec) (dispatch c' name spec).
Proof.
  intros name spec. unfold dispatch, load_node_data, load_element_data, load_element_node_data.
  pose proof same_nodes. pose proof same_elements. pose proof same_entities. pose proof same_groups. pose proof same_data.
  destruct (same_ext spec).
  repeat match goal with |- context [if ?x then _ else _] => destruct x end; auto; same.
Qed.

Lemma same_loop : forall f spec s, osame (load_loop f c spec s) (load_loop f c' spec s).
Proof.
  induction f as [|f IH]; intros spec s; cbn [load_loop]; [apply osame_refl|].
  destruct (eofb s); [apply osame_refl|]. apply osame_bind; [|intros; apply IH].
  unfold load_step. destruct (rd_token [] s) as [buf s1]. destruct (negb (is_section buf)); [apply osame_refl|].
  apply same_bind; [apply same_dispatch|intro; apply same_refl].
Qed.

Lemma same_post : forall spec, osame (post_process c spec) (post_process c' spec).
Proof.
  intro spec. unfold post_process, regroup_nodes, regroup_elements. cbv zeta.
  destruct (bytes_eqb _ _); [|apply osame_refl]. apply osame_bind; [|intros; same].
  apply osame_bind; [apply same_hold|intros ? _]. apply osame_bind; [apply osame_refl|intros ? _].
  apply osame_bind; [|intros; apply osame_refl]. apply osame_ofold. intros b st. apply osame_ofold. intros i st'.
  unfold regroup_node. cbv zeta. destruct (at_ (nb_tags b) i) as [t| | | |]; try apply osame_refl. cbn [obind].
  destruct (_ <=? _); [apply osame_refl|]. destruct (a0 _) as [dim tag].
  destruct (rg_blocks _); [|apply osame_refl]. destruct E as (D & _). destruct (ndebug c).
  - rewrite D by reflexivity. apply osame_refl.
  - left. reflexivity.
Qed.

Theorem same_load : forall b, osame (load_msh c b) (load_msh c' b).
Proof.
  intro b. unfold load_msh, load_msh_fuel. apply osame_bind; [apply same_loop|]. intros. apply same_post.
Qed.

(** ** Writing *)

Definition wsame (w w' : W) : Prop := snd w = Abort \/ w' = w.

Lemma wsame_refl : forall w, wsame w w.
Proof. right. reflexivity. Qed.

Lemma wsame_seq : forall a a' b b', wsame a a' -> wsame b b' -> wsame (a +++ b) (a' +++ b').
Proof.
  intros [x r] a' b b' [H| ->] G; [left; cbn [snd] in H; subst r; reflexivity|].
  destruct r as [[]| | | |]; try (right; reflexivity). destruct G as [G| ->]; [left; exact G|right; reflexivity].
Qed.

Lemma wsame_for : forall A (l : list A) f f', (forall x, wsame (f x) (f' x)) -> wsame (wfor l f) (wfor l f').
Proof.
  intros A l f f' H. induction l as [|x l IH]; cbn [wfor]; [apply wsame_refl|]. apply wsame_seq; [apply H|exact IH].
Qed.

Lemma wsame_assert : forall b, wsame (wassert c b) (wassert c' b).
Proof.
  intro b. unfold wassert. destruct E as (D & _). destruct (ndebug c).
  - rewrite D by reflexivity. apply wsame_refl.
  - destruct b; [destruct (ndebug c'); apply wsame_refl|left; reflexivity].
Qed.

Lemma wsame_curve : forall a k, wsame (save_curve c a k) (save_curve c' a k).
Proof.
  intros a k. unfold save_curve. apply wsame_seq; [apply wsame_refl|]. cbv zeta.
  apply wsame_seq; [apply wsame_assert|apply wsame_refl].
Qed.

Lemma wsame_patch : forall a k, wsame (save_patch c a k) (save_patch c' a k).
Proof.
  intros a k. unfold save_patch. apply wsame_seq; [apply wsame_refl|]. cbv zeta.
  apply wsame_seq; [apply wsame_assert|apply wsame_refl].
Qed.

Theorem wsame_save : forall s, wsame (save_msh c s) (save_msh c' s).
Proof.
  intro s. unfold save_msh. repeat (apply wsame_seq; [apply wsame_refl|]).
  destruct E as (_ & -> & _). destruct (nanospline c); [|apply wsame_refl].
  apply wsame_seq; [apply wsame_refl|]. apply wsame_seq.
  - destruct (0 <? zlen (curves s)); [|apply wsame_refl]. unfold save_curves.
    repeat (apply wsame_seq; [apply wsame_refl|]). apply wsame_seq; [apply wsame_for, wsame_curve|apply wsame_refl].
  - destruct (0 <? zlen (patches s)); [|apply wsame_refl]. unfold save_patches.
    repeat (apply wsame_seq; [apply wsame_refl|]). apply wsame_seq; [apply wsame_for, wsame_patch|apply wsame_refl].
Qed.

End Builds.
