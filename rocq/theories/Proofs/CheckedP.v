(** validate_spec on loaded meshes. *)

From Verif Require Import Spec.Checked Spec.Blame Proofs.BytesP Proofs.ValidateP Proofs.BlameP Proofs.ElemP Proofs.PostP Proofs.RtStep.

Ltac Zify.zify_post_hook ::= idtac.

(** ** Cutting into rows *)

Lemma cut_concat : forall k num data, List.length data = (k * num)%nat ->
  List.concat (cut k num data) = data /\ Forall (fun r => List.length r = k) (cut k num data).
Proof.
  intros k num. induction num as [|num IH]; intros data H; cbn [cut List.concat].
  - rewrite Nat.mul_0_r in H. destruct data; [split; [reflexivity|constructor]|discriminate].
  - destruct (IH (skipn k data)) as [A B]; [rewrite skipn_length, H; nia|].
    rewrite A, firstn_skipn. split; [reflexivity|]. constructor; [|exact B]. rewrite firstn_length. nia.
Qed.

Lemma cut_rows_of : forall k rows, Forall (fun r : list Z => List.length r = k) rows ->
  cut k (List.length rows) (List.concat rows) = rows.
Proof.
  intros k rows H. induction H as [|r rows Hr H IH]; [reflexivity|]. cbn [List.length cut List.concat].
  rewrite <- Hr, firstn_app, Nat.sub_diag, firstn_all, app_nil_r, skipn_app, Nat.sub_diag, skipn_all, app_nil_l. cbn [skipn].
  rewrite Hr, IH. reflexivity.
Qed.

Lemma concat_length : forall k (rows : list (list Z)), Forall (fun r => List.length r = k) rows ->
  List.length (List.concat rows) = (k * List.length rows)%nat.
Proof.
  intros k rows H. induction H as [|r rows Hr H IH]; [cbn; lia|]. cbn [List.concat List.length]. rewrite app_length, IH, Hr. lia.
Qed.

(** ** Blocks of the right size *)

Record sized_element (b : ElementBlock) : Prop := {
  se_num : 0 < eb_num b;
  se_data : exists n, gmsh_nodes (eb_type b) = Some n /\ zlen (eb_data b) = eb_num b * (n + 1) }.

Record sized_node (b : NodeBlock) : Prop := {
  sn_num : nb_num b = zlen (nb_tags b);
  sn_data : zlen (nb_data b) = (zlen (nb_tags b) * (if 0 <? nb_parametric b then 3 + nb_dim b else 3)) mod 2 ^ 64;
  sn_sum : addable b }.

Record sized_spec (s : MshSpec) : Prop := {
  sz_node_num : n_num_blocks (nodes s) = zlen (n_blocks (nodes s));
  sz_element_num : e_num_blocks (elements s) = zlen (e_blocks (elements s));
  sz_nodes : Forall sized_node (n_blocks (nodes s));
  sz_elements : Forall sized_element (e_blocks (elements s)) }.

Lemma sized_width : forall b, sized_element b -> exists n, gmsh_nodes (eb_type b) = Some n /\ 1 <= n /\
  zlen (eb_data b) / eb_num b = n + 1 /\
  List.length (eb_data b) = (Z.to_nat (n + 1) * Z.to_nat (eb_num b))%nat /\ countable b.
Proof.
  intros b [N (n & G & L)]. exists n. destruct (gmsh_nodes_spec _ _ G) as (_ & R & _).
  split; [exact G|]. split; [lia|]. split; [rewrite L, Z.mul_comm; apply Z.div_mul; lia|].
  split; [|unfold countable; rewrite L; nia].
  apply Nat2Z.inj. change (Z.of_nat (List.length (eb_data b))) with (zlen (eb_data b)).
  rewrite L, Nat2Z.inj_mul, !Z2Nat.id by lia. ring.
Qed.

Lemma element_tags : forall s b, sized_element b ->
  (valid_element_block s b <->
   Forall (fun e => element_range s (el_tag e) /\ Forall (node_range s) (el_nodes e)) (block_elements b)).
Proof.
  intros s b S. destruct (sized_width b S) as (n & G & N1 & W & L & _). unfold block_elements, valid_element_block.
  rewrite G, W. set (k := Z.to_nat (n + 1)) in *. assert (K : (0 < k)%nat) by lia. split.
  - intros (rows & E & F).
    set (rs := map (fun r : Z * list Z => fst r :: snd r) rows).
    assert (EC : eb_data b = List.concat rs) by (rewrite E; apply flat_map_concat_map).
    assert (RK : Forall (fun r => List.length r = k) rs).
    { apply Forall_map. eapply Forall_impl; [|exact F]. cbn beta. intros r (H & _). cbn [List.length].
      unfold zlen in H. subst k. lia. }
    assert (NR : Z.to_nat (eb_num b) = List.length rs).
    { rewrite EC, (concat_length k rs RK) in L. nia. }
    rewrite NR, EC, (cut_rows_of k rs RK). subst rs. rewrite map_map. apply Forall_map.
    eapply Forall_impl; [|exact F]. cbn beta. intros r (_ & A & B). cbn [element_of el_tag el_nodes hd tl]. auto.
  - intro F. destruct (cut_concat k (Z.to_nat (eb_num b)) (eb_data b) L) as [A B].
    exists (map (fun r => (hd 0 r, tl r)) (cut k (Z.to_nat (eb_num b)) (eb_data b))).
    rewrite flat_map_concat_map, map_map. cbn [fst snd].
    assert (M : map (fun r : list Z => hd 0 r :: tl r) (cut k (Z.to_nat (eb_num b)) (eb_data b)) = cut k (Z.to_nat (eb_num b)) (eb_data b)).
    { rewrite <- (map_id (cut _ _ _)) at 2. apply map_ext_in. intros r Hr. rewrite Forall_forall in B. specialize (B r Hr).
      destruct r; [cbn [List.length] in B; lia|reflexivity]. }
    rewrite M. split; [symmetry; exact A|]. apply Forall_map. apply Forall_map in F. rewrite Forall_forall in *.
    intros r Hr. cbn [fst snd]. specialize (B r Hr). destruct (F r Hr) as [F1 F2]. cbn [element_of el_tag el_nodes] in F1, F2.
    split; [|auto]. destruct r; cbn [List.length tl] in *; unfold zlen; lia.
Qed.

Lemma node_tags : forall s b, sized_node b ->
  (valid_node_block s b <-> Forall (fun r => node_range s (n_tag r)) (block_nodes b)).
Proof.
  intros s b [A B C].
  assert (T : Forall (fun r => node_range s (n_tag r)) (block_nodes b) <-> Forall (node_range s) (nb_tags b)).
  { unfold block_nodes. rewrite <- (nodes_of_tags (Z.to_nat (node_width b)) (nb_tags b) (nb_data b)) at 2. rewrite Forall_map. reflexivity. }
  rewrite T. split; [intros [_ H _]; exact H|]. intro H. split; assumption.
Qed.

Lemma Forall_flat : forall A B (P : B -> Prop) (f : A -> list B) l,
  Forall P (flat_map f l) <-> Forall (fun x => Forall P (f x)) l.
Proof.
  intros A B P f l. induction l as [|x l IH]; cbn [flat_map]; [split; constructor|].
  rewrite Forall_app, Forall_cons_iff, IH. reflexivity.
Qed.

Lemma Forall_iff : forall A (P Q R : A -> Prop) l, Forall P l -> (forall x, P x -> (Q x <-> R x)) -> (Forall Q l <-> Forall R l).
Proof.
  intros A P Q R l H F. induction H as [|x l Hx H IH]; [split; constructor|]. rewrite !Forall_cons_iff, IH, (F x Hx). reflexivity.
Qed.

Lemma sized_typed : forall s, sized_spec s -> typed s.
Proof. intros s H. eapply Forall_impl; [|exact (sz_elements s H)]. intros b B. pose proof (se_num b B). lia. Qed.

Lemma validate_sized : forall s, sized_spec s -> (validate_spec s = Ok tt <-> in_range s).
Proof.
  intros s H. rewrite (validate_ok s (sized_typed s H)). destruct H as [H1 H2 H3 H4].
  assert (N : Forall (fun b => valid_node_block s b /\ addable b) (n_blocks (nodes s)) <->
              Forall (fun n => node_range s (n_tag n)) (mesh_nodes (nodes s))).
  { unfold mesh_nodes. rewrite Forall_flat. apply (Forall_iff _ sized_node); [exact H3|]. intros b B.
    rewrite (node_tags s b B). pose proof (sn_sum b B). tauto. }
  assert (E : Forall (fun b => valid_element_block s b /\ countable b) (e_blocks (elements s)) <->
              Forall (fun e => element_range s (el_tag e) /\ Forall (node_range s) (el_nodes e)) (mesh_elements (elements s))).
  { unfold mesh_elements. rewrite Forall_flat. apply (Forall_iff _ sized_element); [exact H4|]. intros b B.
    rewrite (element_tags s b B). destruct (sized_width b B) as (n & _ & _ & _ & _ & C). tauto. }
  rewrite N, E. split.
  - intros ([A1 A2 A3 A4] & B & C). split; assumption.
  - intros [A B C D]. split; [split; assumption|]. auto.
Qed.

(** No undefined behaviour, and complaints about tags only. *)
Lemma sized_check : forall s, sized_spec s ->
  validate_spec s = Ok tt \/ exists m, In m about_tags /\ validate_spec s = Throw (CorruptData (str m)).
Proof.
  intros s H. pose proof (sized_typed s H) as T.
  destruct (check_validate s) as [E|[(x & E)|(u & E)]]; [left; exact E| |exfalso].
  - right. destruct (blames_validate s T) as (_ & B). destruct (B _ E) as (m & M & l & P & r & EC & _ & NP).
    injection M as ->. exists m. split; [|exact E].
    assert (I : In (P, m) (claims s)) by (rewrite EC; apply in_or_app; right; left; reflexivity).
    destruct H as [H1 H2 H3 H4]. unfold claims in I. apply in_app_or in I. destruct I as [I|I]; [|apply in_app_or in I; destruct I as [I|I]].
    + cbn [head_claims In] in I. repeat (destruct I as [I|I]; [injection I as <- <-; try contradiction; cbn [about_tags In]; tauto|]). destruct I.
    + apply in_flat_map in I. destruct I as (b & Hb & I). rewrite Forall_forall in H3. destruct (H3 b Hb) as [N1 N2 N3].
      unfold node_claims in I. apply in_app_or in I. destruct I as [I|I]; [|apply in_app_or in I; destruct I as [I|I]].
      * destruct I as [I|[]]. injection I as <- <-. contradiction.
      * apply in_flat_map in I. destruct I as (t & _ & [I|[I|[]]]); injection I as <- <-; cbn [about_tags In]; tauto.
      * destruct I as [I|[]]. destruct (0 <? nb_parametric b); injection I as <- <-; contradiction.
    + apply in_flat_map in I. destruct I as (b & Hb & I). rewrite Forall_forall in H4. specialize (H4 b Hb).
      destruct (sized_width b H4) as (n & G0 & _ & W & _). destruct H4 as [_ (n' & G & L)].
      unfold element_claims in I. cbv zeta in I. destruct I as [I|I].
      * injection I as <- <-. exfalso. apply NP. rewrite W. exists (eb_num b). rewrite L. f_equal. congruence.
      * revert I. generalize 0 at 1. generalize (zlen (eb_data b) / eb_num b). generalize (eb_data b).
        induction l0 as [|x l0 IH]; intros w k I; cbn [row_claims] in I; [destruct I|].
        apply in_app_or in I. destruct I as [I|I]; [|exact (IH _ _ I)].
        destruct (k =? 0); destruct I as [I|[I|[]]]; injection I as <- <-; cbn [about_tags In]; tauto.
  - apply (validate_undef s u T) in E. destruct H as [H1 H2 H3 H4].
    destruct E as [(_ & _ & l & b & r & E & _ & _ & _ & N)|(_ & _ & _ & l & b & r & E & _ & N)].
    + apply N. rewrite E in H3. apply Forall_app in H3. destruct H3 as [_ H3]. inversion H3; subst. apply sn_sum. assumption.
    + apply N. rewrite E in H4. apply Forall_app in H4. destruct H4 as [_ H4]. inversion H4 as [|? ? B _]; subst.
      destruct (sized_width b B) as (n & _ & _ & _ & _ & C). exact C.
Qed.

(** ** 4.1 *)

Lemma loaded_sized : forall s, loaded s -> Forall honest (e_blocks (elements s)) -> Forall flagged (n_blocks (nodes s)) -> sized_spec s.
Proof.
  intros s H HE HN. destruct H as [A1 A2 A3 A4 A5 A6 _ _ _]. split; try assumption.
  - rewrite Forall_forall in *. intros b Hb. destruct (A3 b Hb) as [B1 B2 B3 B4 B5 B6 B7 B8 B9]. specialize (HN b Hb). unfold flagged in HN.
    split; [congruence| |].
    + rewrite B6, <- B4. f_equal. f_equal.
      destruct (Z.eqb_spec (nb_parametric b) 1) as [->|N]; [reflexivity|].
      replace (0 <? nb_parametric b) with false by (symmetry; apply Z.ltb_ge; lia). reflexivity.
    + intro P. apply B9. lia.
  - rewrite Forall_forall in *. intros b Hb. destruct (A6 b Hb) as [B1 B2 B3 (n & G & L) B5]. destruct (HE b Hb) as [P Q].
    split; [exact P|]. exists n. split; [exact G|]. rewrite L. apply Z.mod_small. specialize (Q n G).
    destruct (gmsh_nodes_spec _ _ G) as (_ & R & _). split; [nia|exact Q].
Qed.
