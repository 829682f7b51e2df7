(** load_msh_post_process: regrouping of 2.2 nodes and elements. *)

From Verif Require Import Model.LoadMsh Spec.Mesh Proofs.BytesP Proofs.RtStep.

Ltac Zify.zify_post_hook ::= idtac.

(** ** Loops over indices as loops over lists *)

Lemma ofold_app : forall A S (f : A -> S -> outcome S) l1 l2 s,
  ofold f (l1 ++ l2) s = obind (ofold f l1 s) (ofold f l2).
Proof.
  intros A S f l1. induction l1 as [|x l1 IH]; intros l2 s; [reflexivity|].
  cbn [app ofold]. destruct (f x s); cbn [obind]; auto.
Qed.

Lemma ofold_map : forall A B S (f : A -> S -> outcome S) (g : B -> A) l s,
  ofold f (map g l) s = ofold (fun x => f (g x)) l s.
Proof.
  intros A B S f g l. induction l as [|x l IH]; intro s; [reflexivity|].
  cbn [map ofold]. destruct (f (g x) s); cbn [obind]; auto.
Qed.

Lemma ofold_ext : forall A S (f g : A -> S -> outcome S) l,
  (forall x s, In x l -> f x s = g x s) -> forall s, ofold f l s = ofold g l s.
Proof.
  intros A S f g l H. induction l as [|x l IH]; intro s; [reflexivity|].
  cbn [ofold]. rewrite H by (left; reflexivity).
  destruct (g x s); cbn [obind]; auto. apply IH. intros; apply H; right; assumption.
Qed.

Lemma ofold_flat : forall A B S (f : B -> S -> outcome S) (g : A -> list B) l s,
  ofold f (flat_map g l) s = ofold (fun x => ofold f (g x)) l s.
Proof.
  intros A B S f g l. induction l as [|x l IH]; intro s; [reflexivity|].
  cbn [flat_map ofold]. rewrite ofold_app. destruct (ofold f (g x) s); cbn [obind]; auto.
Qed.

Lemma ofold_iota_from : forall A S (f : Z -> S -> outcome S) (g : A -> S -> outcome S) (l : list A) k,
  (forall i x s, nth_error l i = Some x -> f (Z.of_nat (k + i)) s = g x s) ->
  forall s, ofold f (map Z.of_nat (seq k (List.length l))) s = ofold g l s.
Proof.
  intros A S f g l. induction l as [|x l IH]; intros k H s; [reflexivity|].
  cbn [List.length seq map ofold].
  rewrite <- (H O x s eq_refl). rewrite Nat.add_0_r.
  destruct (f (Z.of_nat k) s); cbn [obind]; auto.
  apply IH. intros i y s0 E. rewrite <- (H (Datatypes.S i) y s0 E). f_equal. f_equal. lia.
Qed.

Lemma ofold_iota : forall A S (f : Z -> S -> outcome S) (g : A -> S -> outcome S) (l : list A) n,
  n = zlen l ->
  (forall i x s, nth_error l i = Some x -> f (Z.of_nat i) s = g x s) ->
  forall s, ofold f (iota n) s = ofold g l s.
Proof.
  intros A S f g l n -> H s. unfold iota. rewrite to_nat_zlen. apply (ofold_iota_from A S f g l 0). exact H.
Qed.

Lemma at_nth : forall A (l : list A) i x, nth_error l i = Some x -> at_ l (Z.of_nat i) = Ok x.
Proof.
  intros A l i x H. unfold at_. replace (Z.of_nat i <? 0) with false by (symmetry; apply Z.ltb_ge; lia).
  rewrite Nat2Z.id, H. reflexivity.
Qed.

(** ** Cutting *)

Lemma cut_length : forall k num data, List.length (cut k num data) = num.
Proof. induction num; intro data; cbn [cut List.length]; [reflexivity|]. rewrite IHnum. reflexivity. Qed.

Lemma skipn_skip : forall A (l : list A) x y, skipn x (skipn y l) = skipn (y + x) l.
Proof.
  intros A l x y. revert l. induction y as [|y IH]; intro l; [reflexivity|].
  destruct l as [|a l]; [cbn [skipn Nat.add]; apply skipn_nil|]. cbn [skipn Nat.add]. apply IH.
Qed.

Lemma cut_nth : forall k num data i r, nth_error (cut k num data) i = Some r ->
  r = firstn k (skipn (i * k) data) /\ (i < num)%nat.
Proof.
  induction num as [|num IH]; intros data i r H; [destruct i; discriminate|].
  cbn [cut] in H. destruct i as [|i].
  - injection H as <-. cbn [Nat.mul skipn]. split; [reflexivity|lia].
  - cbn [nth_error] in H. apply IH in H. destruct H as [-> L]. split; [|lia].
    rewrite skipn_skip. do 2 f_equal.
Qed.

Lemma nth_error_skip : forall A (l : list A) k i, nth_error (skipn k l) i = nth_error l (k + i).
Proof.
  intros A l k. revert l. induction k as [|k IH]; intros l i; [reflexivity|].
  destruct l as [|x l]; [cbn [skipn Nat.add]; destruct i; reflexivity|]. cbn [skipn Nat.add nth_error]. apply IH.
Qed.

Lemma nth_error_first : forall A (l : list A) k i, (i < k)%nat -> nth_error (firstn k l) i = nth_error l i.
Proof.
  intros A l k. revert l. induction k as [|k IH]; intros l i H; [lia|].
  destruct l as [|x l]; [reflexivity|]. destruct i as [|i]; [reflexivity|].
  cbn [firstn nth_error]. apply IH. lia.
Qed.

Lemma nth_error_in : forall A (l : list A) i, (i < List.length l)%nat -> exists x, nth_error l i = Some x.
Proof.
  intros A l i H. destruct (nth_error l i) eqn:E; [eauto|]. apply nth_error_None in E. lia.
Qed.

Lemma cut_app : forall k n1 n2 d1 d2, List.length d1 = (n1 * k)%nat ->
  cut k (n1 + n2) (d1 ++ d2) = cut k n1 d1 ++ cut k n2 d2.
Proof.
  induction n1 as [|n1 IH]; intros n2 d1 d2 H.
  - destruct d1; [reflexivity|discriminate].
  - cbn [Nat.add cut app]. rewrite firstn_app, skipn_app.
    replace (k - List.length d1)%nat with O by lia. cbn [firstn skipn]. rewrite app_nil_r.
    f_equal. apply IH. rewrite skipn_length. lia.
Qed.

(** ** Marking the nodes of the elements *)

Section Mark.
Variables (size mn : Z).
Hypothesis Hmn : size_ok mn.

Definition idx (t : Z) : Z := to_size (t - mn).
Definition inside (t : Z) : Prop := idx t < size.

Lemma idx_inj : forall t u, size_ok t -> size_ok u -> idx t = idx u -> t = u.
Proof.
  unfold idx, to_size, size_ok, two64. intros t u Ht Hu H.
  pose proof (Z.div_mod (t - mn) 18446744073709551616 ltac:(lia)).
  pose proof (Z.div_mod (u - mn) 18446744073709551616 ltac:(lia)).
  rewrite H in H0. lia.
Qed.

Lemma mark_in : forall d g t a, inside t ->
  mark size mn d g t a = Ok (arr_set a (idx t) (to_size d, to_size g)).
Proof.
  intros d g t a H. unfold mark. fold (idx t). unfold inside in H.
  replace (size <=? idx t) with false by (symmetry; apply Z.leb_gt; exact H). reflexivity.
Qed.

Lemma mark_out : forall d g t a, ~ inside t -> mark size mn d g t a = Undef OutOfBounds.
Proof.
  intros d g t a H. unfold mark. fold (idx t). unfold inside in H.
  replace (size <=? idx t) with true by (symmetry; apply Z.leb_le; lia). reflexivity.
Qed.

Definition mark_el (e : element) : arrs -> outcome arrs :=
  ofold (mark size mn (el_dim e) (el_ent e)) (el_nodes e).

(** [a] holds the classification by the elements [es]. *)
Definition holds (a : arrs) (es : list element) : Prop :=
  forall t, size_ok t -> exists dt, classified es t dt /\ a (idx t) = (to_size (fst dt), to_size (snd dt)).

Lemma holds_nil : holds (fun _ => (0, 0)) [].
Proof. intros t _. exists (0, 0). split; [right; split; [intros e []|reflexivity]|reflexivity]. Qed.

Lemma mark_list : forall d g ts a, Forall size_ok ts -> Forall inside ts ->
  exists a', ofold (mark size mn d g) ts a = Ok a' /\
    (forall t, size_ok t -> In t ts -> a' (idx t) = (to_size d, to_size g)) /\
    (forall t, size_ok t -> ~ In t ts -> a' (idx t) = a (idx t)).
Proof.
  intros d g ts. induction ts as [|u ts IH]; intros a Hs Hi.
  - exists a. split; [reflexivity|]. split; [intros t _ []|reflexivity].
  - inversion Hs as [|? ? Hu Hs']; subst. inversion Hi as [|? ? Iu Hi']; subst.
    cbn [ofold]. rewrite mark_in by exact Iu. cbn [obind].
    destruct (IH (arr_set a (idx u) (to_size d, to_size g)) Hs' Hi') as (a' & E & H1 & H2).
    exists a'. split; [exact E|]. split.
    + intros t Ht [<-|HI]; [|apply H1; assumption].
      destruct (in_dec Z.eq_dec u ts) as [HI|HN]; [apply H1; assumption|].
      rewrite H2 by assumption. unfold arr_set. rewrite Z.eqb_refl. reflexivity.
    + intros t Ht HN. rewrite H2; [|exact Ht|intro; apply HN; right; assumption].
      unfold arr_set. destruct (idx t =? idx u) eqn:EI; [|reflexivity].
      apply Z.eqb_eq in EI. exfalso. apply HN. left. symmetry. apply idx_inj; assumption.
Qed.

Lemma classified_in : forall es e t, In t (el_nodes e) -> classified (es ++ [e]) t (el_dim e, el_ent e).
Proof. intros es e t H. left. exists es, e, []. split; [reflexivity|]. split; [exact H|]. split; [intros e' []|reflexivity]. Qed.

Lemma classified_out : forall es e t dt, ~ In t (el_nodes e) -> classified es t dt -> classified (es ++ [e]) t dt.
Proof.
  intros es e t dt H [(l & x & r & -> & H1 & H2 & H3)|[H1 H2]].
  - left. exists l, x, (r ++ [e]). split; [rewrite <- app_assoc; reflexivity|]. split; [exact H1|].
    split; [|exact H3]. intros e' He. apply in_app_or in He. destruct He as [He|[<-|[]]]; auto.
  - right. split; [|exact H2]. intros e' He. apply in_app_or in He. destruct He as [He|[<-|[]]]; auto.
Qed.

Lemma mark_el_holds : forall a es e, Forall size_ok (el_nodes e) -> Forall inside (el_nodes e) ->
  holds a es -> exists a', mark_el e a = Ok a' /\ holds a' (es ++ [e]).
Proof.
  intros a es e Hs Hi H. destruct (mark_list (el_dim e) (el_ent e) (el_nodes e) a Hs Hi) as (a' & E & H1 & H2).
  exists a'. split; [exact E|]. intros t Ht. destruct (in_dec Z.eq_dec t (el_nodes e)) as [HI|HN].
  - exists (el_dim e, el_ent e). split; [apply classified_in; exact HI|apply H1; assumption].
  - destruct (H t Ht) as (dt & C & E2). exists dt. split; [apply classified_out; assumption|].
    rewrite H2 by assumption. exact E2.
Qed.

Definition el_ok (e : element) : Prop := Forall size_ok (el_nodes e).
Definition el_in (e : element) : Prop := Forall inside (el_nodes e).

Lemma mark_all : forall es done a, Forall el_ok es -> Forall el_in es -> holds a done ->
  exists a', ofold mark_el es a = Ok a' /\ holds a' (done ++ es).
Proof.
  induction es as [|e es IH]; intros done a Hs Hi H.
  - exists a. rewrite app_nil_r. split; [reflexivity|exact H].
  - inversion Hs; subst. inversion Hi; subst. cbn [ofold].
    destruct (mark_el_holds a done e) as (a1 & E1 & H1); auto. rewrite E1. cbn [obind].
    destruct (IH (done ++ [e]) a1) as (a2 & E2 & H2'); auto. exists a2. split; [exact E2|].
    rewrite <- app_assoc in H2'. exact H2'.
Qed.

Lemma mark_list_result : forall d g ts a, (exists a', ofold (mark size mn d g) ts a = Ok a' /\ Forall inside ts) \/
  (ofold (mark size mn d g) ts a = Undef OutOfBounds /\ ~ Forall inside ts).
Proof.
  intros d g. induction ts as [|t ts IH]; intro a; [left; exists a; split; [reflexivity|constructor]|].
  cbn [ofold]. destruct (Z_lt_dec (idx t) size) as [I|N].
  - rewrite mark_in by exact I. cbn [obind].
    destruct (IH (arr_set a (idx t) (to_size d, to_size g))) as [(a' & E & F)|[E F]].
    + left. exists a'. split; [exact E|constructor; assumption].
    + right. split; [exact E|]. intro X. inversion X; auto.
  - rewrite mark_out by exact N. right. split; [reflexivity|]. intro X. inversion X; auto.
Qed.

Lemma mark_all_result : forall es a, (exists a', ofold mark_el es a = Ok a' /\ Forall el_in es) \/
  (ofold mark_el es a = Undef OutOfBounds /\ ~ Forall el_in es).
Proof.
  induction es as [|e es IH]; intro a; [left; exists a; split; [reflexivity|constructor]|].
  cbn [ofold]. unfold mark_el at 1 3.
  destruct (mark_list_result (el_dim e) (el_ent e) (el_nodes e) a) as [(a' & E & F)|[E F]]; rewrite E; cbn [obind].
  - destruct (IH a') as [(a2 & E2 & F2)|[E2 F2]].
    + left. exists a2. split; [exact E2|constructor; assumption].
    + right. split; [exact E2|]. intro X. inversion X; auto.
  - right. split; [reflexivity|]. intro X. inversion X; auto.
Qed.
End Mark.

(** ** Blocks of elements *)

Lemma in_skipn : forall A (l : list A) k x, In x (skipn k l) -> In x l.
Proof. intros A l k x H. rewrite <- (firstn_skipn k l). apply in_or_app. right. exact H. Qed.
Lemma in_firstn : forall A (l : list A) k x, In x (firstn k l) -> In x l.
Proof. intros A l k x H. rewrite <- (firstn_skipn k l). apply in_or_app. left. exact H. Qed.

Lemma cut_in : forall k num data r x, In r (cut k num data) -> In x r -> In x data.
Proof.
  induction num as [|num IH]; intros data r x Hr Hx; [destruct Hr|].
  destruct Hr as [<-|Hr]; [eapply in_firstn; exact Hx|]. eapply in_skipn. eapply IH; eassumption.
Qed.

Lemma block_elements_ok : forall b, element_block_22 b -> Forall el_ok (block_elements b).
Proof.
  intros b H. unfold block_elements. destruct (gmsh_nodes (eb_type b)) as [n|]; [|constructor].
  apply Forall_forall. intros e He. apply in_map_iff in He. destruct He as (r & <- & Hr).
  apply Forall_forall. intros x Hx. cbn [element_of el_nodes] in Hx.
  pose proof (eb22_vals b H) as F. rewrite Forall_forall in F. apply F.
  eapply cut_in; [exact Hr|]. destruct r; [destruct Hx|right; exact Hx].
Qed.

Lemma mark_block_eq : forall size mn b a, element_block_22 b -> zlen (eb_data b) < two64 ->
  mark_block size mn b a = ofold (mark_el size mn) (block_elements b) a.
Proof.
  intros size mn b a [Hd Ht Hn (n & Hg & HL) Hv] HS. unfold mark_block, block_elements. rewrite Hg.
  destruct (gmsh_nodes_spec _ _ Hg) as (E & Hr & _). rewrite E. cbn [obind].
  rewrite ofold_map. set (k := Z.to_nat (n + 1)). set (m := Z.to_nat (eb_num b)).
  destruct Hn as [Hn0 _].
  assert (LD : List.length (eb_data b) = (m * k)%nat).
  { unfold zlen in HL. apply Nat2Z.inj. rewrite HL, Nat2Z.inj_mul. unfold m, k. lia. }
  apply ofold_iota.
  { unfold zlen. rewrite cut_length. unfold m. lia. }
  intros i r s Hi. apply cut_nth in Hi. destruct Hi as [Er Li].
  unfold mark_el, element_of. cbn [el_dim el_ent el_nodes].
  assert (Lr : List.length r = k).
  { rewrite Er, firstn_length, skipn_length, LD. nia. }
  assert (Lk : Z.of_nat k = n + 1) by (unfold k; lia).
  apply ofold_iota.
  { unfold zlen. destruct r; cbn [tl List.length] in *; lia. }
  intros j t s' Hj.
  assert (Hj' : nth_error r (Datatypes.S j) = Some t) by (destruct r; [destruct j; discriminate|exact Hj]).
  assert (Lj : (Datatypes.S j < k)%nat).
  { rewrite <- Lr. apply nth_error_Some. rewrite Hj'. discriminate. }
  assert (Hx : nth_error (eb_data b) (i * k + Datatypes.S j) = Some t).
  { rewrite Er in Hj'. rewrite nth_error_first in Hj' by exact Lj. rewrite nth_error_skip in Hj'. exact Hj'. }
  replace (to_size (Z.of_nat i * (n + 1) + Z.of_nat j + 1)) with (Z.of_nat (i * k + Datatypes.S j)).
  { rewrite (at_nth _ _ _ _ Hx). reflexivity. }
  assert ((i * k + Datatypes.S j < List.length (eb_data b))%nat) by (apply nth_error_Some; rewrite Hx; discriminate).
  unfold zlen in HS.
  replace (Z.of_nat i * (n + 1) + Z.of_nat j + 1) with (Z.of_nat (i * k + Datatypes.S j)) by (rewrite Nat2Z.inj_add, Nat2Z.inj_mul; lia).
  symmetry. apply to_size_id. lia.
Qed.

Lemma mark_blocks_eq : forall size mn bs a, Forall element_block_22 bs ->
  Forall (fun b => zlen (eb_data b) < two64) bs ->
  ofold (mark_block size mn) bs a = ofold (mark_el size mn) (flat_map block_elements bs) a.
Proof.
  intros size mn bs a H1 H2. rewrite ofold_flat. apply ofold_ext. intros b s Hb.
  rewrite Forall_forall in H1, H2. apply mark_block_eq; auto.
Qed.

(** ** Neighbours *)

Lemma nd_map : forall A K (key : A -> K) l, neighbours_differ key l <-> neighbours_differ (fun k => k) (map key l).
Proof.
  intros A K key l. induction l as [|x l IH]; [reflexivity|].
  destruct l as [|y l]; [reflexivity|]. cbn [map neighbours_differ] in *. tauto.
Qed.

Lemma nd_snoc : forall A K (key : A -> K) l x y, neighbours_differ key (l ++ [x]) -> key x <> key y ->
  neighbours_differ key ((l ++ [x]) ++ [y]).
Proof.
  intros A K key l x y. induction l as [|z l IH]; intros H N.
  - cbn. auto.
  - destruct l as [|z' l].
    + cbn in *. tauto.
    + destruct H as [H1 H2]. split; [exact H1|]. apply IH; assumption.
Qed.

Lemma nd_same_keys : forall A K (key : A -> K) l l', map key l = map key l' ->
  neighbours_differ key l -> neighbours_differ key l'.
Proof. intros A K key l l' E H. apply (nd_map _ _ key l'). rewrite <- E. apply (nd_map _ _ key l). exact H. Qed.

(** ** Machine integers *)

Lemma to_int_to_size : forall z, int_ok z -> to_int (to_size z) = z.
Proof.
  intros z H. rewrite <- to_int_mod. unfold to_size.
  replace ((z mod two64) mod two32) with (z mod two32).
  - rewrite to_int_mod. apply to_int_id. exact H.
  - rewrite (Z.mod_eq z two64) by discriminate.
    replace (z - two64 * (z / two64)) with (z + (- (two32 * (z / two64))) * two32) by (unfold two64, two32; lia).
    rewrite Z.mod_add by discriminate. reflexivity.
Qed.

Lemma to_size_inj : forall a b, int_ok a -> int_ok b -> to_size a = to_size b -> a = b.
Proof. intros a b Ha Hb E. rewrite <- (to_int_to_size a Ha), E. apply to_int_to_size. exact Hb. Qed.

Lemma to_size_max : forall z, int_ok z -> 0 <= z -> to_size z <> SIZE_MAX.
Proof. intros z [H1 H2] H E. rewrite to_size_id in E; unfold two64, INT_MAX, SIZE_MAX in *; lia. Qed.

(** ** Nodes *)

Lemma nodes_of_nth : forall w tags data i r, nth_error (nodes_of w tags data) i = Some r ->
  exists t, nth_error tags i = Some t /\
    r = {| n_tag := t; n_x := nth 0 (skipn (i * w) data) 0; n_y := nth 1 (skipn (i * w) data) 0;
           n_z := nth 2 (skipn (i * w) data) 0 |}.
Proof.
  intros w tags. induction tags as [|t tags IH]; intros data i r H; [destruct i; discriminate|].
  cbn [nodes_of] in H. destruct i as [|i].
  - injection H as <-. exists t. split; reflexivity.
  - cbn [nth_error] in H. destruct (IH _ _ _ H) as (u & H1 & ->). exists u. split; [exact H1|].
    rewrite skipn_skip. reflexivity.
Qed.

Lemma nodes_of_length : forall w tags data, List.length (nodes_of w tags data) = List.length tags.
Proof. intros w tags. induction tags as [|t tags IH]; intro data; [reflexivity|]. cbn. rewrite IH. reflexivity. Qed.

Lemma nodes_of_snoc : forall tags data t x y z, List.length data = (3 * List.length tags)%nat ->
  nodes_of 3 (tags ++ [t]) (data ++ [x; y; z]) =
  nodes_of 3 tags data ++ [{| n_tag := t; n_x := x; n_y := y; n_z := z |}].
Proof.
  induction tags as [|u tags IH]; intros data t x y z H.
  - destruct data; [reflexivity|discriminate].
  - destruct data as [|d0 [|d1 [|d2 data]]]; cbn [List.length] in H; try lia.
    cbn [nodes_of app nth skipn]. f_equal. apply IH. lia.
Qed.

Lemma nodes_of_tags : forall w tags data, map n_tag (nodes_of w tags data) = tags.
Proof. intros w tags. induction tags as [|t tags IH]; intro data; [reflexivity|]. cbn. rewrite IH. reflexivity. Qed.

(** regroup_node with the node at hand. *)
Definition regroup_row (c : cfg) (size mn : Z) (a : arrs) (r : node) (st : regroup) : outcome regroup :=
  let idx := to_size (n_tag r - mn) in
  if size <=? idx then Undef OutOfBounds else
  let (dim, tag) := a idx in
  let st1 :=
    if negb (dim =? rg_dim st) || negb (tag =? rg_tag st) then
      {| rg_blocks := {| nb_dim := to_int dim; nb_tag := to_int tag; nb_parametric := 0;
                         nb_num := 0; nb_tags := []; nb_data := [] |} :: rg_blocks st;
         rg_dim := dim; rg_tag := tag |}
    else st in
  match rg_blocks st1 with
  | [] => if ndebug c then Undef EmptyBack else Abort
  | cur :: others =>
    Ok {| rg_blocks := push_node (n_tag r) (n_x r) (n_y r) (n_z r) cur :: others;
          rg_dim := rg_dim st1; rg_tag := rg_tag st1 |}
  end.

Lemma regroup_block_eq : forall c size mn a b st, node_block_22 b -> zlen (nb_data b) < two64 ->
  ofold (regroup_node c size mn a b) (iota (nb_num b)) st =
  ofold (regroup_row c size mn a) (block_nodes b) st.
Proof.
  intros c size mn a b st [Hp Hbd Hbt Hn HL Ht Hv] HS.
  assert (W : node_width b = 3) by (unfold node_width; rewrite Hp; reflexivity).
  unfold block_nodes. rewrite W. change (Z.to_nat 3) with 3%nat.
  assert (L3 : List.length (nb_data b) = (3 * List.length (nb_tags b))%nat).
  { apply Nat2Z.inj. unfold zlen in HL, Hn. lia. }
  apply ofold_iota; [unfold zlen; rewrite nodes_of_length; exact Hn|].
  intros i r s H. apply nodes_of_nth in H. destruct H as (t & H1 & ->).
  assert (Li : (i < List.length (nb_tags b))%nat) by (apply nth_error_Some; rewrite H1; discriminate).
  assert (X : forall j, (j < 3)%nat ->
    at_ (nb_data b) (to_size (Z.of_nat i * 3 + Z.of_nat j)) = Ok (nth j (skipn (i * 3) (nb_data b)) 0)).
  { intros j Lj. unfold zlen in HS.
    replace (Z.of_nat i * 3 + Z.of_nat j) with (Z.of_nat (i * 3 + j)) by lia.
    rewrite to_size_id by lia. apply at_nth. rewrite <- nth_error_skip. apply nth_error_nth'.
    rewrite skipn_length. lia. }
  unfold regroup_node, regroup_row. rewrite (at_nth _ _ _ _ H1). cbn [obind n_tag n_x n_y n_z].
  destruct (size <=? to_size (t - mn)); [reflexivity|].
  destruct (a (to_size (t - mn))) as [dim tag].
  match goal with |- match rg_blocks ?x with _ => _ end = _ => destruct (rg_blocks x) as [|cur others] end; [reflexivity|].
  pose proof (X 0%nat ltac:(lia)) as X0. change (Z.of_nat 0) with 0 in X0. rewrite Z.add_0_r in X0.
  pose proof (X 1%nat ltac:(lia)) as X1. change (Z.of_nat 1) with 1 in X1.
  pose proof (X 2%nat ltac:(lia)) as X2. change (Z.of_nat 2) with 2 in X2.
  rewrite X0, X1, X2. reflexivity.
Qed.

Lemma regroup_blocks_eq : forall c size mn a bs st, Forall node_block_22 bs ->
  Forall (fun b => zlen (nb_data b) < two64) bs ->
  ofold (fun b st => ofold (regroup_node c size mn a b) (iota (nb_num b)) st) bs st =
  ofold (regroup_row c size mn a) (flat_map block_nodes bs) st.
Proof.
  intros c size mn a bs st H1 H2. rewrite ofold_flat. apply ofold_ext. intros b s Hb.
  rewrite Forall_forall in H1, H2. apply regroup_block_eq; auto.
Qed.

Section Group.
Variables (c : cfg) (size mn : Z) (a : arrs) (es : list element).
Hypothesis Ha : holds mn a es.
(** Entities as they come from elements of known type. *)
Hypothesis Hes : forall e, In e es -> int_ok (el_dim e) /\ 0 <= el_dim e /\ int_ok (el_ent e).

Lemma class_ok : forall t dt, classified es t dt -> int_ok (fst dt) /\ 0 <= fst dt /\ int_ok (snd dt).
Proof.
  intros t dt [(l & e & r & E & _ & _ & ->)|[_ ->]].
  - apply Hes. rewrite E. apply in_or_app. right. left. reflexivity.
  - cbn [fst snd]. unfold int_ok, INT_MIN, INT_MAX. lia.
Qed.

Definition row_ok (r : node) : Prop := size_ok (n_tag r) /\ size_ok (n_x r) /\ size_ok (n_y r) /\ size_ok (n_z r).

Record gblock (b : NodeBlock) : Prop := {
  gb_par : nb_parametric b = 0;
  gb_dim : int_ok (nb_dim b);
  gb_tag : int_ok (nb_tag b);
  gb_len : List.length (nb_data b) = (3 * List.length (nb_tags b))%nat;
  gb_full : nb_tags b <> [];
  gb_tags : Forall size_ok (nb_tags b);
  gb_vals : Forall size_ok (nb_data b);
  gb_class : forall t, In t (nb_tags b) -> classified es t (node_key b) }.

Record ginv (st : regroup) (done : list node) : Prop := {
  gi_rows : flat_map block_nodes (rev (rg_blocks st)) = done;
  gi_blocks : Forall gblock (rg_blocks st);
  gi_runs : neighbours_differ node_key (rev (rg_blocks st));
  gi_cur : match rg_blocks st with
           | [] => rg_dim st = SIZE_MAX /\ rg_tag st = SIZE_MAX
           | b :: _ => rg_dim st = to_size (nb_dim b) /\ rg_tag st = to_size (nb_tag b)
           end }.

Lemma block_nodes_push : forall b t x y z, nb_parametric b = 0 ->
  List.length (nb_data b) = (3 * List.length (nb_tags b))%nat ->
  block_nodes (push_node t x y z b) = block_nodes b ++ [{| n_tag := t; n_x := x; n_y := y; n_z := z |}].
Proof.
  intros b t x y z Hp HL. unfold block_nodes, node_width, push_node.
  cbn [nb_parametric nb_dim nb_tags nb_data]. rewrite Hp. cbn [Z.eqb].
  apply nodes_of_snoc. exact HL.
Qed.

Lemma row_eta : forall r, {| n_tag := n_tag r; n_x := n_x r; n_y := n_y r; n_z := n_z r |} = r.
Proof. intros []; reflexivity. Qed.

Lemma regroup_row_step : forall r st done, row_ok r -> inside size mn (n_tag r) -> ginv st done ->
  exists st', regroup_row c size mn a r st = Ok st' /\ ginv st' (done ++ [r]).
Proof.
  intros r st done (Rt & Rx & Ry & Rz) HI [G1 G2 G3 G4]. unfold regroup_row.
  fold (idx mn (n_tag r)). unfold inside in HI.
  replace (size <=? idx mn (n_tag r)) with false by (symmetry; apply Z.leb_gt; exact HI).
  destruct (Ha (n_tag r) Rt) as ([d g] & HC & ->). cbn [fst snd].
  destruct (class_ok _ _ HC) as (Hd & Hd0 & Hg). cbn [fst snd] in Hd, Hd0, Hg.
  assert (New : forall blocks, rg_blocks st = blocks ->
    match blocks with [] => True | b :: _ => node_key b <> (d, g) end ->
    ginv {| rg_blocks := push_node (n_tag r) (n_x r) (n_y r) (n_z r)
              {| nb_dim := to_int (to_size d); nb_tag := to_int (to_size g); nb_parametric := 0;
                 nb_num := 0; nb_tags := []; nb_data := [] |} :: blocks;
            rg_dim := to_size d; rg_tag := to_size g |} (done ++ [r])).
  { intros blocks EB NK. rewrite EB in *.
    rewrite !to_int_to_size by assumption.
    split; cbn [rg_blocks rg_dim rg_tag].
    - cbn [rev]. rewrite flat_map_app, G1. cbn [flat_map]. rewrite app_nil_r. f_equal.
      rewrite block_nodes_push by reflexivity. cbn. rewrite row_eta. reflexivity.
    - constructor; [|exact G2]. split; cbn [push_node nb_parametric nb_dim nb_tag nb_tags nb_data app];
        try assumption; try reflexivity; try discriminate.
      + constructor; [exact Rt|constructor].
      + repeat (constructor; [assumption|]). constructor.
      + intros t [<-|[]]. exact HC.
    - cbn [rev]. destruct blocks as [|b bs]; [exact I|]. cbn [rev] in *. apply nd_snoc; [exact G3|].
      intro E. apply NK. rewrite E. reflexivity.
    - cbn [push_node nb_dim nb_tag]. split; reflexivity. }
  destruct (negb (to_size d =? rg_dim st) || negb (to_size g =? rg_tag st)) eqn:EK.
  - cbn [rg_blocks rg_dim rg_tag]. eexists. split; [reflexivity|]. apply New; [reflexivity|].
    destruct (rg_blocks st) as [|b bs]; [exact I|]. destruct G4 as [G4 G5]. intro E.
    unfold node_key in E. injection E as E1 E2. subst d g. rewrite G4, G5, !Z.eqb_refl in EK. discriminate.
  - apply orb_false_iff in EK. destruct EK as [E1 E2]. apply negb_false_iff in E1, E2.
    apply Z.eqb_eq in E1, E2.
    destruct (rg_blocks st) as [|b bs] eqn:EB.
    { exfalso. destruct G4 as [G4 _]. rewrite G4 in E1. eapply to_size_max; [exact Hd|exact Hd0|exact E1]. }
    destruct G4 as [G4 G5]. inversion G2 as [|? ? Gb Gbs]; subst.
    destruct Gb as [P1 P2 P3 P4 P5 P6 P7 P8].
    rewrite G4 in E1. rewrite G5 in E2. apply to_size_inj in E1; [|assumption..]. apply to_size_inj in E2; [|assumption..].
    eexists. split; [reflexivity|]. split; cbn [rg_blocks rg_dim rg_tag].
    + cbn [rev] in *. rewrite !flat_map_app in *. cbn [flat_map] in *. rewrite !app_nil_r in *.
      rewrite block_nodes_push by assumption. rewrite row_eta, app_assoc. reflexivity.
    + constructor; [|exact Gbs]. split; cbn [push_node nb_parametric nb_dim nb_tag nb_tags nb_data];
        try assumption.
      * rewrite !app_length. cbn [List.length]. lia.
      * intro X. apply app_eq_nil in X. destruct X; discriminate.
      * apply Forall_app. split; [exact P6|]. constructor; [exact Rt|constructor].
      * apply Forall_app. split; [exact P7|]. repeat (constructor; [assumption|]). constructor.
      * intros t Ht. apply in_app_or in Ht. destruct Ht as [Ht|[<-|[]]]; [apply (P8 t Ht)|].
        unfold node_key. cbn [push_node nb_dim nb_tag]. rewrite <- E1, <- E2. exact HC.
    + cbn [rev] in *. eapply nd_same_keys; [|exact G3]. rewrite !map_app. reflexivity.
    + cbn [push_node nb_dim nb_tag]. rewrite G4, G5. split; reflexivity.
Qed.

Lemma regroup_rows : forall rows st done, Forall row_ok rows -> ginv st done ->
  (exists st', ofold (regroup_row c size mn a) rows st = Ok st' /\ ginv st' (done ++ rows) /\
     Forall (fun r => inside size mn (n_tag r)) rows) \/
  (ofold (regroup_row c size mn a) rows st = Undef OutOfBounds /\
     ~ Forall (fun r => inside size mn (n_tag r)) rows).
Proof.
  induction rows as [|r rows IH]; intros st done HR G.
  - left. exists st. rewrite app_nil_r. repeat split; try assumption; try apply G. constructor.
  - inversion HR as [|? ? Hr HR']; subst. cbn [ofold].
    destruct (Z_lt_dec (idx mn (n_tag r)) size) as [I|N].
    + destruct (regroup_row_step r st done Hr I G) as (st1 & E1 & G1). rewrite E1. cbn [obind].
      destruct (IH st1 (done ++ [r]) HR' G1) as [(st2 & E2 & G2 & F)|[E2 F]].
      * left. exists st2. split; [exact E2|]. split; [rewrite <- app_assoc in G2; exact G2|].
        constructor; assumption.
      * right. split; [exact E2|]. intro X. inversion X; auto.
    + right. split; [|intro X; inversion X; auto].
      unfold regroup_row. fold (idx mn (n_tag r)).
      replace (size <=? idx mn (n_tag r)) with true by (symmetry; apply Z.leb_le; lia). reflexivity.
Qed.
End Group.

Lemma block_rows_ok : forall b, node_block_22 b -> Forall row_ok (block_nodes b).
Proof.
  intros b [Hp Hbd Hbt Hn HL Ht Hv]. apply Forall_forall. intros r Hr.
  apply In_nth_error in Hr. destruct Hr as (i & Hi). unfold block_nodes in Hi.
  apply nodes_of_nth in Hi. destruct Hi as (t & H1 & ->).
  rewrite Forall_forall in Ht, Hv.
  assert (X : forall j l, (forall x, In x l -> size_ok x) -> size_ok (nth j l 0)).
  { intros j l H. destruct (nth_in_or_default j l 0) as [I|E]; [apply H; exact I|].
    rewrite E. unfold size_ok, two64. lia. }
  split; cbn [n_tag n_x n_y n_z].
  - apply Ht. eapply nth_error_In. exact H1.
  - repeat split; apply X; intros x Hx; apply Hv; eapply in_skipn; exact Hx.
Qed.

(** ** Elements *)

Lemma block_elements_dim : forall b e, element_block_22 b -> In e (block_elements b) ->
  int_ok (el_dim e) /\ 0 <= el_dim e /\ int_ok (el_ent e).
Proof.
  intros b e [Hd Ht Hn _ _] He. unfold block_elements in He.
  destruct (gmsh_nodes (eb_type b)) as [n|]; [|destruct He].
  apply in_map_iff in He. destruct He as (r & <- & _). cbn [element_of el_dim el_ent].
  assert (0 <= eb_dim b <= 3).
  { unfold gmsh_dim in Hd. destruct (gmsh_family (eb_type b)) as [f|]; [|discriminate].
    injection Hd as <-. destruct f as [[] p|[] p]; cbn; lia. }
  unfold int_ok, INT_MIN, INT_MAX in *. lia.
Qed.

Lemma gmsh_dim_range : forall t d, gmsh_dim t = Some d -> 0 <= d <= 3 /\ 1 <= t <= 31.
Proof.
  intros t d H. unfold gmsh_dim in H. destruct (gmsh_family t) as [f|] eqn:E; [|discriminate].
  injection H as <-. split; [destruct f as [[] p|[] p]; cbn; lia|].
  assert (N : gmsh_nodes t = Some (family_nodes f)) by (unfold gmsh_nodes; rewrite E; reflexivity).
  apply gmsh_nodes_spec in N. apply N.
Qed.

Lemma block_elements_merge : forall x y d, element_block_22 x -> element_block_22 y ->
  element_key x = element_key y -> eb_num x + eb_num y < two64 ->
  d = {| eb_dim := eb_dim x; eb_tag := eb_tag x; eb_type := eb_type x;
         eb_num := to_size (eb_num x + eb_num y); eb_data := eb_data x ++ eb_data y |} ->
  block_elements d = block_elements x ++ block_elements y /\ element_block_22 d /\
  eb_num d = eb_num x + eb_num y.
Proof.
  intros x y d [D1 T1 N1 (n & G1 & L1) V1] [D2 T2 N2 (n2 & G2 & L2) V2] K S ->.
  unfold element_key in K. injection K as K1 K2 K3.
  rewrite <- K3 in G2. rewrite G1 in G2. injection G2 as <-.
  destruct (gmsh_nodes_spec _ _ G1) as (_ & Hn & _). destruct N1 as [N1 N1']. destruct N2 as [N2 N2'].
  assert (E : to_size (eb_num x + eb_num y) = eb_num x + eb_num y) by (apply to_size_id; lia).
  split; [|split].
  - unfold block_elements. cbn [eb_type eb_num eb_data]. rewrite <- K3, G1, E.
    rewrite (Z2Nat.inj_add (eb_num x)) by lia. rewrite cut_app.
    + rewrite map_app. f_equal. apply map_ext. intro r. unfold element_of. cbn [eb_dim eb_tag eb_type].
      rewrite K1, K2, K3. reflexivity.
    + apply Nat2Z.inj. unfold zlen in L1. rewrite Nat2Z.inj_mul. lia.
  - split; cbn [eb_dim eb_tag eb_type eb_num eb_data]; try assumption.
    + rewrite E. split; lia.
    + exists n. split; [exact G1|]. rewrite zlen_app, E. lia.
    + apply Forall_app. split; assumption.
  - cbn [eb_num]. exact E.
Qed.

Lemma total_cons : forall x l, total (x :: l) = x + total l.
Proof. reflexivity. Qed.

Lemma total_nil : total [] = 0.
Proof. reflexivity. Qed.

Record einv (st : eregroup) (done : list ElementBlock) : Prop := {
  ei_els : flat_map block_elements (rev (eg_blocks st)) = flat_map block_elements done;
  ei_blocks : Forall element_block_22 (eg_blocks st);
  ei_full : Forall (fun b => 0 < eb_num b) done -> Forall (fun b => 0 < eb_num b) (eg_blocks st);
  ei_runs : neighbours_differ element_key (rev (eg_blocks st));
  ei_total : total (map eb_num (eg_blocks st)) = total (map eb_num done);
  ei_cur : match eg_blocks st with
           | [] => eg_dim st = 0 /\ eg_tag st = 0 /\ eg_type st = 0
           | b :: _ => eg_dim st = to_size (eb_dim b) /\ eg_tag st = to_size (eb_tag b) /\
                       eg_type st = to_size (eb_type b)
           end }.

Lemma total_app : forall a b, total (a ++ b) = total a + total b.
Proof. unfold total. induction a as [|x a IH]; intro b; [reflexivity|]. cbn [app fold_right]. rewrite IH. lia. Qed.

Lemma total_nonneg : forall l, (forall x, In x l -> 0 <= x) -> 0 <= total l.
Proof.
  induction l as [|x l IH]; intro H; [cbn; lia|]. rewrite total_cons.
  pose proof (H x (or_introl eq_refl)). assert (0 <= total l) by (apply IH; intros; apply H; right; assumption).
  lia.
Qed.

Lemma nums_nonneg : forall bs, Forall element_block_22 bs -> 0 <= total (map eb_num bs).
Proof.
  intros bs H. apply total_nonneg. intros x Hx. apply in_map_iff in Hx. destruct Hx as (b & <- & Hb).
  rewrite Forall_forall in H. apply (H b Hb).
Qed.

Lemma regroup_element_step : forall b st done, element_block_22 b ->
  total (map eb_num (done ++ [b])) < two64 -> einv st done ->
  exists st', regroup_element b st = Ok st' /\ einv st' (done ++ [b]).
Proof.
  intros b st done Hb HT [I1 I2 I0 I3 I4 I5]. unfold regroup_element.
  assert (HT2 : eb_num b + total (map eb_num (eg_blocks st)) < two64).
  { rewrite map_app, total_app in HT. cbn [map] in HT; rewrite ?total_cons, ?total_nil in HT. rewrite I4. lia. }
  pose proof Hb as [D T N G V].
  destruct (gmsh_dim_range _ _ D) as [Hd Hty].
  assert (Id : int_ok (eb_dim b)) by (unfold int_ok, INT_MIN, INT_MAX; lia).
  assert (Ity : int_ok (eb_type b)) by (unfold int_ok, INT_MIN, INT_MAX; lia).
  match goal with |- context [if ?k then _ else _] => destruct k eqn:EK end; cbn [eg_blocks eg_dim eg_tag eg_type].
  - eexists. split; [reflexivity|]. cbn [eb_dim eb_tag eb_type eb_num eb_data app].
    rewrite Z.add_0_l. rewrite to_size_id by exact N.
    assert (EB : {| eb_dim := eb_dim b; eb_tag := eb_tag b; eb_type := eb_type b; eb_num := eb_num b; eb_data := eb_data b |} = b)
      by (destruct b; reflexivity).
    rewrite EB. split; cbn [eg_blocks eg_dim eg_tag eg_type].
    + cbn [rev]. rewrite !flat_map_app, I1. reflexivity.
    + constructor; assumption.
    + intro F. apply Forall_app in F. destruct F as [F1 F2]. inversion F2; subst. constructor; [assumption|auto].
    + cbn [rev]. destruct (eg_blocks st) as [|x xs]; [exact I|]. cbn [rev] in *. apply nd_snoc; [exact I3|].
      intro E. unfold element_key in E. injection E as E1 E2 E3. destruct I5 as (J1 & J2 & J3).
      rewrite J1, J2, J3, E1, E2, E3, !Z.eqb_refl in EK. discriminate.
    + cbn [map]; rewrite ?total_cons, ?total_nil. rewrite map_app, total_app. cbn [map]; rewrite ?total_cons, ?total_nil.
      lia.
    + repeat split.
  - apply orb_false_iff in EK. destruct EK as [EK E3]. apply orb_false_iff in EK. destruct EK as [E1 E2].
    apply negb_false_iff in E1, E2, E3. apply Z.eqb_eq in E1, E2, E3.
    destruct (eg_blocks st) as [|x xs] eqn:EB.
    { exfalso. destruct I5 as (_ & _ & J3). rewrite J3 in E3.
      rewrite to_size_id in E3 by (unfold two64; lia). lia. }
    destruct I5 as (J1 & J2 & J3). inversion I2 as [|? ? Hx Hxs]; subst.
    pose proof Hx as [Dx Tx Nx Gx Vx]. destruct (gmsh_dim_range _ _ Dx) as [Hdx Htyx].
    rewrite J1 in E1. rewrite J2 in E2. rewrite J3 in E3.
    apply to_size_inj in E1; [|assumption|unfold int_ok, INT_MIN, INT_MAX; lia].
    apply to_size_inj in E2; [|assumption..].
    apply to_size_inj in E3; [|assumption|unfold int_ok, INT_MIN, INT_MAX; lia].
    assert (K : element_key x = element_key b) by (unfold element_key; congruence).
    assert (HS : eb_num x + eb_num b < two64).
    { cbn [map] in HT2; rewrite ?total_cons, ?total_nil in HT2. pose proof (nums_nonneg xs Hxs). lia. }
    eexists. split; [reflexivity|].
    match goal with |- einv {| eg_blocks := ?d :: _ |} _ => set (dd := d) end.
    destruct (block_elements_merge x b dd Hx Hb K HS eq_refl) as (M1 & M2 & M3).
    split; cbn [eg_blocks eg_dim eg_tag eg_type].
    + cbn [rev] in *. rewrite !flat_map_app in *. cbn [flat_map] in *. rewrite !app_nil_r in *.
      rewrite M1, app_assoc, I1. reflexivity.
    + constructor; assumption.
    + intro F. apply Forall_app in F. destruct F as [F1 F2]. inversion F2; subst. specialize (I0 F1).
      inversion I0; subst. constructor; [rewrite M3; lia|assumption].
    + cbn [rev] in *. eapply nd_same_keys; [|exact I3]. rewrite !map_app. reflexivity.
    + cbn [map] in *; rewrite ?total_cons, ?total_nil in *. rewrite M3. rewrite map_app, total_app. cbn [map]; rewrite ?total_cons, ?total_nil.
      lia.
    + unfold dd. cbn [eb_dim eb_tag eb_type]. repeat split; assumption.
Qed.

Lemma regroup_element_all : forall bs st done, Forall element_block_22 bs ->
  total (map eb_num (done ++ bs)) < two64 -> Forall element_block_22 done -> einv st done ->
  exists st', ofold regroup_element bs st = Ok st' /\ einv st' (done ++ bs).
Proof.
  induction bs as [|b bs IH]; intros st done H HT HD I0.
  - exists st. rewrite app_nil_r. split; [reflexivity|exact I0].
  - inversion H as [|? ? Hb H']; subst. cbn [ofold].
    assert (HT1 : total (map eb_num (done ++ [b])) < two64).
    { rewrite !map_app, !total_app in *. cbn [map] in *; rewrite ?total_cons, ?total_nil in *.
      pose proof (nums_nonneg bs H'). lia. }
    destruct (regroup_element_step b st done Hb HT1 I0) as (st1 & E1 & I1). rewrite E1. cbn [obind].
    destruct (IH st1 (done ++ [b])) as (st2 & E2 & I2).
    + exact H'.
    + rewrite <- app_assoc. exact HT.
    + apply Forall_app. split; [exact HD|]. constructor; [exact Hb|constructor].
    + exact I1.
    + exists st2. rewrite <- app_assoc in I2. split; assumption.
Qed.

(** ** The whole step *)

Lemma flat_forall : forall A B (f : A -> list B) P l, (forall x, In x l -> Forall P (f x)) ->
  Forall P (flat_map f l).
Proof.
  intros A B f P l H. apply Forall_forall. intros y Hy. apply in_flat_map in Hy.
  destruct Hy as (x & Hx & Hy). specialize (H x Hx). rewrite Forall_forall in H. auto.
Qed.

Definition size_of (s : MshSpec) : Z := to_size (n_max (nodes s) - n_min (nodes s) + 1).

(** All tags index into the arrays of the regrouping. *)
Definition indexable (s : MshSpec) : Prop :=
  Forall (el_in (size_of s) (n_min (nodes s))) (mesh_elements (elements s)) /\
  Forall (fun r => inside (size_of s) (n_min (nodes s)) (n_tag r)) (mesh_nodes (nodes s)).

Lemma set_count_nodes : forall bs, flat_map block_nodes (map set_count bs) = flat_map block_nodes bs.
Proof. induction bs as [|b bs IH]; [reflexivity|]. cbn [map flat_map]. rewrite IH. reflexivity. Qed.

Lemma set_count_keys : forall bs, map node_key (map set_count bs) = map node_key bs.
Proof. induction bs as [|b bs IH]; [reflexivity|]. cbn [map]. rewrite IH. reflexivity. Qed.

Theorem post22 : forall c s, version (mesh_format s) = str "2.2" -> raw22 s ->
  can_hold c sz_size (size_of s) (@nil Z) = Ok tt ->
  can_hold c sz_ElementBlock (e_num_blocks (elements s)) (@nil Z) = Ok tt ->
  (indexable s /\ exists s', post_process c s = Ok s' /\ regrouped s s') \/
  (~ indexable s /\ post_process c s = Undef OutOfBounds).
Proof.
  intros c s Hv [R1 R2 R3 R4 R5 R6 R7] C1 C2. unfold post_process. rewrite Hv.
  change (bytes_eqb (str "2.2") v22s) with true. cbv iota.
  unfold regroup_nodes. cbv zeta. fold (size_of s). rewrite C1. cbn [obind].
  rewrite (mark_blocks_eq _ _ _ _ R5 R6). fold (mesh_elements (elements s)).
  assert (EO : Forall el_ok (mesh_elements (elements s))).
  { apply flat_forall. intros b Hb. rewrite Forall_forall in R5. apply block_elements_ok. auto. }
  assert (ED : forall e, In e (mesh_elements (elements s)) ->
             int_ok (el_dim e) /\ 0 <= el_dim e /\ int_ok (el_ent e)).
  { intros e He. apply in_flat_map in He. destruct He as (b & Hb & He). rewrite Forall_forall in R5.
    eapply block_elements_dim; eauto. }
  destruct (mark_all_result (size_of s) (n_min (nodes s)) (mesh_elements (elements s)) (fun _ => (0, 0)))
    as [(a' & E & F)|[E F]]; rewrite E; cbn [obind].
  2:{ right. split; [|reflexivity]. intros [X _]. auto. }
  destruct (mark_all (size_of s) (n_min (nodes s)) (mesh_elements (elements s)) [] (fun _ => (0, 0)) EO F
              (holds_nil (n_min (nodes s)))) as (a2 & E2 & HA).
  rewrite E in E2. injection E2 as <-. cbn [app] in HA.
  rewrite (regroup_blocks_eq _ _ _ _ _ _ R1 R2). fold (mesh_nodes (nodes s)).
  assert (RO : Forall row_ok (mesh_nodes (nodes s))).
  { apply flat_forall. intros b Hb. rewrite Forall_forall in R1. apply block_rows_ok. auto. }
  assert (G0 : ginv (mesh_elements (elements s)) {| rg_blocks := []; rg_dim := SIZE_MAX; rg_tag := SIZE_MAX |} []).
  { split; [reflexivity|constructor|exact I|split; reflexivity]. }
  destruct (regroup_rows c (size_of s) (n_min (nodes s)) a' (mesh_elements (elements s)) HA ED
              (mesh_nodes (nodes s)) _ [] RO G0) as [(st & E3 & G & F2)|[E3 F2]]; rewrite E3; cbn [obind].
  2:{ right. split; [|reflexivity]. intros [_ X]. auto. }
  left. split; [split; assumption|]. cbn [app] in G. destruct G as [G1 G2 G3 G4].
  unfold regroup_elements. cbn [set_nodes elements e_num_blocks e_blocks]. rewrite C2. cbn [obind].
  destruct (regroup_element_all (e_blocks (elements s)) {| eg_blocks := []; eg_dim := 0; eg_tag := 0; eg_type := 0 |} [])
    as (st2 & E4 & J).
  { exact R5. }
  { exact R7. }
  { constructor. }
  { split; [reflexivity|constructor|constructor|exact I|reflexivity|repeat split]. }
  rewrite E4. cbn [obind app] in *. destruct J as [J1 J2 J0 J3 J4 J5].
  eexists. split; [reflexivity|].
  split; cbn [set_elements set_nodes nodes elements n_blocks n_num_blocks e_blocks e_num_blocks].
  - unfold mesh_nodes. cbn [n_blocks]. rewrite set_count_nodes. exact G1.
  - apply Forall_forall. intros b Hb. apply in_map_iff in Hb. destruct Hb as (x & <- & Hx).
    apply in_rev in Hx. rewrite Forall_forall in G2. destruct (G2 x Hx) as [P1 P2 P3 P4 P5 P6 P7 P8].
    split; cbn [set_count nb_parametric nb_dim nb_tag nb_num nb_tags nb_data]; try assumption; try reflexivity.
    unfold zlen. lia.
  - apply Forall_forall. intros b Hb. apply in_map_iff in Hb. destruct Hb as (x & <- & Hx).
    apply in_rev in Hx. rewrite Forall_forall in G2. apply (G2 x Hx).
  - reflexivity.
  - eapply nd_same_keys; [|exact G3]. rewrite set_count_keys. reflexivity.
  - intros b t Hb Ht. apply in_map_iff in Hb. destruct Hb as (x & <- & Hx).
    apply in_rev in Hx. rewrite Forall_forall in G2. apply (G2 x Hx). exact Ht.
  - exact J1.
  - apply Forall_rev. exact J2.
  - intro F0. apply Forall_rev. apply J0. exact F0.
  - reflexivity.
  - exact J3.
  - eexists. eexists. reflexivity.
Qed.

(** With at least one node, being indexable is lying in [min, max]. *)
Lemma inside_range : forall s t, size_ok (n_min (nodes s)) -> size_ok (n_max (nodes s)) -> size_ok t ->
  n_min (nodes s) <= n_max (nodes s) -> n_max (nodes s) - n_min (nodes s) + 1 < two64 ->
  inside (size_of s) (n_min (nodes s)) t <-> n_min (nodes s) <= t <= n_max (nodes s).
Proof.
  intros s t H1 H2 H3 L S. unfold inside, idx, size_of. unfold size_ok in *.
  rewrite (to_size_id (n_max (nodes s) - n_min (nodes s) + 1)) by lia.
  destruct (Z_lt_dec t (n_min (nodes s))) as [T|T].
  - replace (to_size (t - n_min (nodes s))) with (t - n_min (nodes s) + two64); [lia|].
    unfold to_size. apply Z.mod_unique with (-1); unfold two64 in *; lia.
  - rewrite to_size_id by lia. lia.
Qed.
