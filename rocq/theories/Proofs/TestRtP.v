(** The specs that pass the round-trip test. *)

From Verif Require Import Model.TestIo Spec.Alike Spec.Consistent22 Proofs.BytesP Proofs.DblP Proofs.DecP Proofs.RoundP
  Proofs.RtBase Proofs.RtStep Proofs.Rt41A Proofs.Rt41B Proofs.Rt41 Proofs.ElemP Proofs.PostP Proofs.Rt22 Proofs.Final Proofs.Final22 Proofs.ValidRt
  Proofs.ConvertP Proofs.ValidateP Proofs.AgreeP Proofs.TestIoP.
Ltac Zify.zify_post_hook ::= idtac.

Section Trip.
Variables (c : cfg) (a : bool) (r : dbl -> dbl).
Hypothesis R : forall x, size_ok x -> finite x -> six_digits_of x (r x).

Lemma r_fine : forall x, size_ok x -> finite x -> size_ok (r x) /\ finite (r x).
Proof. intros x H F. destruct (R x H F) as (_ & d & k & _ & H1 & H2 & _). auto. Qed.

Lemma stays_iff : forall t x, dbl_ok t x -> (equal x (via t r x) <-> stays r t x).
Proof.
  intros t x [H F]. unfold equal, via, stays. destruct t.
  - specialize (F eq_refl). destruct (r_fine x H F) as [H' F']. split.
    + intros [(_ & _ & E)|[I _]]; [symmetry; exact E|]. exfalso. apply F. exact (proj1 I).
    + intro E. left. split; [exact F|]. split; [exact F'|]. symmetry. exact E.
  - split; [tauto|]. intros [G|G]; [left|right]; (split; [exact G|]); [split; [exact G|]|]; reflexivity.
Qed.

Lemma stays_list : forall t l, Forall (dbl_ok t) l -> (Forall2 equal l (map (via t r) l) <-> Forall (stays r t) l).
Proof.
  intros t l F. induction F as [|x l H F IH]; cbn [map].
  - split; constructor.
  - rewrite Forall_cons_iff, <- IH, <- (stays_iff t x H).
    split; [intro G; inversion G; subst; auto|intros []; constructor; assumption].
Qed.

Lemma via_sized : forall t l, Forall (dbl_ok t) l -> Forall size_ok (map (via t r) l).
Proof.
  intros t l F. rewrite Forall_map. eapply Forall_impl; [|exact F]. intros x [H G]. unfold via. destruct t; [|exact H].
  apply r_fine; [exact H|auto].
Qed.

Lemma dbls_sized : forall t l, Forall (dbl_ok t) l -> Forall size_ok l.
Proof. intros t l. apply Forall_impl. intros x [H _]. exact H. Qed.

Lemma tag_iff : forall t, size_ok t -> (t = (if a then t else tag32 t) <-> short a t).
Proof.
  intros t H. unfold short. destruct a; [split; [discriminate|reflexivity]|].
  rewrite <- (tag32_same t H). split; [intros E _; symmetry; exact E|]. intro E. symmetry. auto.
Qed.

(** Mapping and comparing. *)
Lemma forall2_map : forall A (f : A -> A) (P : A -> A -> Prop) (Q : A -> Prop) l,
  (forall x, In x l -> (P x (f x) <-> Q x)) -> (Forall2 P l (map f l) <-> Forall Q l).
Proof.
  intros A f P Q l. induction l as [|x l IH]; intro H; cbn [map]; [split; constructor|].
  rewrite Forall_cons_iff, <- IH by (intros; apply H; right; assumption). rewrite <- (H x) by (left; reflexivity).
  split; [intro G; inversion G; subst; auto|intros []; constructor; assumption].
Qed.

Lemma reals_dbl : forall l, Forall (fun x => size_ok x /\ finite x) l -> Forall (dbl_ok true) l.
Proof. intro l. apply Forall_impl. intros x [H F]. split; auto. Qed.

Lemma datas_iff : forall pn npe l, Forall (data_ok c a pn) l ->
  (Forall2 (alike_data npe) l (map (data_via a r) l) <-> Forall (data_survives a r) l).
Proof.
  intros pn npe l H. apply forall2_map. intros d Hd. rewrite Forall_forall in H. destruct (H d Hd) as [_ Hr _ _ He _].
  unfold alike_data, data_via. cbn [d_header d_entries string_tags real_tags int_tags].
  change (map r (real_tags (d_header d))) with (map (via true r) (real_tags (d_header d))).
  rewrite (stays_list true _ (reals_dbl _ Hr)).
  destruct He as (i0 & k & tl & _ & He). rewrite Forall_forall in He.
  rewrite (forall2_map _ _ _ (fun e => short a (de_tag e) /\ Forall (stays r a) (de_data e))).
  - split; [intros (_ & H1 & _ & H2); constructor; assumption|intros []; auto].
  - intros e I. destruct (He e I) as [T _ _ V _]. unfold alike_entry, entry_via. cbn [de_tag de_npe de_data].
    rewrite (tag_iff _ T), (stays_list a _ V). intuition.
Qed.

Lemma curves_iff : forall l, Forall (curve_ok c a) l ->
  (Forall2 alike_curve l (map (curve_via a r) l) <-> Forall (fun k => Forall (stays r a) (cv_data k)) l).
Proof.
  intros l H. apply forall2_map. intros k Hk. rewrite Forall_forall in H. destruct (H k Hk) as [_ _ V _].
  unfold alike_curve, curve_via. cbn. rewrite (stays_list a _ V). tauto.
Qed.

Lemma datas_sized : forall pn l, Forall (data_ok c a pn) l -> Forall data_sized l /\ Forall data_sized (map (data_via a r) l).
Proof.
  intros pn l H. rewrite Forall_map. split; (eapply Forall_impl; [|exact H]); intros d [_ Hr _ _ (i0 & k & tl & _ & He) _]; split.
  - eapply dbls_sized, reals_dbl. exact Hr.
  - eapply Forall_impl; [|exact He]. intros e [_ _ _ V _]. exact (dbls_sized _ _ V).
  - exact (via_sized true _ (reals_dbl _ Hr)).
  - cbn [data_via d_entries]. rewrite Forall_map. eapply Forall_impl; [|exact He]. intros e [_ _ _ V _]. exact (via_sized _ _ V).
Qed.

Lemma curves_sized : forall l, Forall (curve_ok c a) l -> Forall (fun k => Forall size_ok (cv_data k)) l /\
  Forall (fun k => Forall size_ok (cv_data k)) (map (curve_via a r) l).
Proof.
  intros l H. rewrite Forall_map. split; (eapply Forall_impl; [|exact H]); intros k [_ _ V _].
  - exact (dbls_sized _ _ V).
  - exact (via_sized _ _ V).
Qed.

(** ** Version 4.1 *)

Lemma alike41 : forall s, consistent41 c a s -> counted s ->
  (alike (nanospline c) s (via41 a r (nanospline c) s) <-> survives c a r s).
Proof.
  intros s H C. destruct H as [_ _ _ [_ _ Hn _ He D1 D2 D3] _ HS]. destruct C as [C1 C2].
  assert (KS : nanospline c = true ->
    (Forall2 alike_curve (curves s) (curves (via41 a r (nanospline c) s)) <->
     Forall (fun k => Forall (stays r a) (cv_data k)) (curves s))).
  { intro E. specialize (HS E). unfold via41. cbn [curves]. rewrite E. apply curves_iff. apply (so_curves _ _ _ HS). }
  split.
  - intros [A1 A2 A3 A4 A5 A6 A7]. constructor.
    + cbn [via41 nodes] in A1, A2. unfold nodes_via in A1, A2. destruct (Z.eqb_spec (n_num_nodes (nodes s)) 0) as [E|E].
      * destruct A1 as [A1 _]. cbn in A1. rewrite C1 in A1. destruct (n_blocks (nodes s)); [constructor|].
        rewrite zlen_cons in A1. pose proof (zlen_nonneg _ l). lia.
      * cbn [n_blocks] in A2. revert A2. apply forall2_map. intros b I. specialize (Hn E).
        pose proof (no_blocks _ _ _ Hn) as B. rewrite Forall_forall in B. specialize (B b I).
        unfold alike_node_block, node_block_via. cbn. rewrite (stays_list a _ (nbo_vals _ _ _ B)). tauto.
    + intro E. cbn [via41 nodes] in A1, A2. unfold nodes_via in A1, A2. rewrite E in A1, A2. cbn in A1, A2.
      destruct (nodes s). cbn in *. inversion A2. destruct A1 as (-> & _ & -> & ->). subst. reflexivity.
    + intro E. cbn [via41 elements] in A3. unfold elements_via in A3. rewrite E in A3. exact A3.
    + rewrite !Forall_app. rewrite <- (datas_iff false false), <- (datas_iff false false), <- (datas_iff true true) by assumption. auto.
    + intro E. apply KS; auto.
  - intros [B1 B2 B3 B4 B5]. rewrite !Forall_app in B4.
    rewrite <- (datas_iff false false), <- (datas_iff false false), <- (datas_iff true true) in B4 by assumption.
    destruct B4 as (B4 & B6 & B7). constructor; try assumption.
    + cbn [via41 nodes]. unfold nodes_via. destruct (Z.eqb_spec (n_num_nodes (nodes s)) 0) as [E|E].
      * rewrite (B2 E). repeat split.
      * repeat split.
    + cbn [via41 nodes]. unfold nodes_via. destruct (Z.eqb_spec (n_num_nodes (nodes s)) 0) as [E|E].
      * rewrite (B2 E). constructor.
      * cbn [n_blocks]. specialize (Hn E). pose proof (no_blocks _ _ _ Hn) as B. rewrite Forall_forall in B, B1.
        apply (forall2_map _ _ _ (fun _ => True)); [|apply Forall_forall; auto]. intros b I. split; [auto|intros _].
        unfold alike_node_block, node_block_via. cbn. rewrite (stays_list a _ (nbo_vals _ _ _ (B b I))). auto 7.
    + cbn [via41 elements]. unfold elements_via. destruct (Z.eqb_spec (e_num_elements (elements s)) 0) as [E|E]; auto.
    + intro E. apply KS; auto.
Qed.

End Trip.

Lemma test_unfold : forall c v ft s b s', validate_spec s = Ok tt ->
  save_msh c (set_format {| version := v; file_type := ft; data_size := data_size (mesh_format s) |} s) = (b, Ok tt) ->
  load_msh c b = Ok s' ->
  save_and_load c v ft s =
  assert_same c (set_format {| version := v; file_type := ft; data_size := data_size (mesh_format s) |} s) s'.
Proof.
  intros c v ft s b s' V S L. unfold save_and_load. cbv zeta. change (validate_spec (set_format _ s)) with (validate_spec s).
  rewrite V, S. cbn [obind]. rewrite L. reflexivity.
Qed.

Lemma test_validates : forall c v ft s, save_and_load c v ft s = Ok true -> validate_spec s = Ok tt.
Proof.
  intros c v ft s E. unfold save_and_load in E. cbv zeta in E. change (validate_spec (set_format _ s)) with (validate_spec s) in E.
  destruct (validate_spec s) as [[]| | | |]; [reflexivity|discriminate..].
Qed.

Lemma valid_counted : forall s, validate_spec s = Ok tt -> counted s.
Proof.
  intros s V. unfold validate_spec in V. cbv zeta in V. split; apply Z.eqb_eq.
  - destruct (n_num_blocks (nodes s) =? _); [reflexivity|discriminate].
  - destruct (n_num_blocks (nodes s) =? _); [|discriminate]. destruct (e_num_blocks (elements s) =? _); [reflexivity|discriminate].
Qed.

Lemma pass41 : forall c a s, consistent41 c a (to41 a s) -> validate_spec s = Ok tt ->
  decides (save_and_load c (str "4.1") (if a then 0 else 1) s) (survives c a r6 s).
Proof.
  intros c a s H V. destruct (roundtrip41 c a _ H) as (b & S & L). pose proof (valid_counted s V) as C.
  erewrite test_unfold; [|exact V|exact S|exact L]. pose proof (alike41 c a r6 ascii_round_six _ H C) as A.
  eapply dec_iff; [|etransitivity; [exact A|]; split; intros [B1 B2 B3 B4 B5]; constructor; assumption]. clear A.
  change (set_format _ s) with (to41 a s). set (s1 := to41 a s) in *. change (counted s1) in C.
  destruct H as [_ _ _ [_ _ Hn _ He D1 D2 D3] _ HS]. destruct C as [C1 C2].
  destruct (datas_sized c a r6 ascii_round_six _ _ D1) as [X1 Y1]. destruct (datas_sized c a r6 ascii_round_six _ _ D2) as [X2 Y2].
  destruct (datas_sized c a r6 ascii_round_six _ _ D3) as [X3 Y3].
  apply same_dec.
  - split; assumption.
  - unfold counted, via41. cbn [nodes elements]. unfold nodes_via, elements_via.
    destruct (n_num_nodes (nodes s1) =? 0), (e_num_elements (elements s1) =? 0); cbn; rewrite ?zlen_map; auto.
  - intro E. unfold via41 in E |- *. cbn [nodes] in E |- *. unfold nodes_via in E |- *.
    destruct (Z.eqb_spec (n_num_nodes (nodes s1)) 0) as [N|N].
    + cbn [n_default n_blocks] in E |- *. destruct (n_blocks (nodes s1)); [split; constructor|].
      rewrite zlen_cons, zlen_nil in E. pose proof (zlen_nonneg _ l). lia.
    + cbn [n_blocks]. rewrite Forall_map. pose proof (no_blocks _ _ _ (Hn N)) as B. split; (eapply Forall_impl; [|exact B]); intros k K.
      * exact (dbls_sized _ _ (nbo_vals _ _ _ K)).
      * exact (via_sized r6 ascii_round_six _ _ (nbo_vals _ _ _ K)).
  - rewrite !Forall_app. auto.
  - cbn [via41 node_data element_data element_node_data]. rewrite !Forall_app. auto.
  - intro E. cbn [via41 curves]. rewrite E. apply (curves_sized c a r6 ascii_round_six). apply (so_curves _ _ _ (HS E)).
Qed.

(** ** Version 2.2 *)

Lemma app_split : forall A (l1 l2 r1 r2 : list A), List.length l1 = List.length l2 -> l1 ++ r1 = l2 ++ r2 -> l1 = l2 /\ r1 = r2.
Proof.
  intros A l1. induction l1 as [|x l1 IH]; intros [|y l2] r1 r2 L E; try discriminate; [auto|].
  injection L as L. cbn [app] in E. injection E as -> E. destruct (IH _ _ _ L E) as [-> ->]. auto.
Qed.

Lemma flat_split : forall A B C (f : A -> list C) (g : B -> list C) (P : A -> B -> Prop) l l',
  (forall x y, P x y -> List.length (f x) = List.length (g y)) ->
  Forall2 P l l' -> flat_map f l = flat_map g l' -> Forall2 (fun x y => P x y /\ f x = g y) l l'.
Proof.
  intros A B C f g P l l' H F. induction F as [|x y l l' HP F IH]; intro E; [constructor|]. cbn [flat_map] in E.
  destruct (app_split _ _ _ _ _ (H x y HP) E) as [E1 E2]. constructor; auto.
Qed.

Lemma map_fixed : forall A (f : A -> A) l, map f l = l -> Forall (fun x => f x = x) l.
Proof. intros A f l. induction l as [|x l IH]; intro H; [constructor|]. cbn [map] in H. injection H as H1 H2. constructor; auto. Qed.

Lemma map_same_in : forall A (f : A -> A) l, (forall x, In x l -> f x = x) -> map f l = l.
Proof. intros A f l H. rewrite <- (map_id l) at 2. apply map_ext_in. exact H. Qed.

Lemma flat_of_map : forall A B C (f : B -> list C) (g : A -> B) l, flat_map f (map g l) = flat_map (fun x => f (g x)) l.
Proof. intros A B C f g l. induction l as [|x l IH]; [reflexivity|]. cbn [map flat_map]. rewrite IH. reflexivity. Qed.

Lemma block_tags : forall b, map n_tag (block_nodes b) = nb_tags b.
Proof. intro b. apply nodes_of_tags. Qed.

Lemma mesh_tags : forall n, map n_tag (mesh_nodes n) = flat_map nb_tags (n_blocks n).
Proof.
  intro n. unfold mesh_nodes. induction (n_blocks n) as [|b l IH]; [reflexivity|]. cbn [flat_map]. rewrite map_app, IH, block_tags. reflexivity.
Qed.

Lemma forall2_flat : forall A B C (f : A -> list C) (g : B -> list C) l l', Forall2 (fun x y => f x = g y) l l' ->
  flat_map f l = flat_map g l'.
Proof. intros A B C f g l l' F. induction F as [|x y l l' E F IH]; [reflexivity|]. cbn [flat_map]. rewrite E, IH. reflexivity. Qed.

Lemma forall2_maps : forall A B C (f : A -> C) (g : B -> C) l l', Forall2 (fun x y => f x = g y) l l' -> map f l = map g l'.
Proof. intros A B C f g l l' F. induction F as [|x y l l' E F IH]; [reflexivity|]. cbn [map]. rewrite E, IH. reflexivity. Qed.

Lemma forall2_both : forall A B (P : A -> B -> Prop) (Q : A -> Prop) (T : B -> Prop) l l', Forall2 P l l' -> Forall T l' ->
  (forall x y, P x y -> T y -> Q x) -> Forall Q l.
Proof. intros A B P Q T l l' F. induction F; intros G W; constructor; inversion G; subst; eauto. Qed.

Lemma zlen_zero : forall A (l : list A), zlen l = 0 -> l = [].
Proof. intros A [|x l] H; [reflexivity|]. rewrite zlen_cons in H. pose proof (zlen_nonneg _ l). lia. Qed.

Lemma no_blocks_default : forall n, n_num_blocks n = zlen (n_blocks n) -> n_num_blocks n = 0 -> n_num_nodes n = 0 ->
  n_min n = 0 -> n_max n = 0 -> n = n_default.
Proof. intros [q1 q2 q3 q4 q5] H E1 E2 E3 E4. cbn in *. rewrite E1 in H. symmetry in H. apply zlen_zero in H. subst. reflexivity. Qed.

(** The nodes of blocks of three coordinates. *)
Lemma plain_flat : forall a r l, Forall plain l ->
  flat_map block_nodes (map (node_block_via a r) l) = map (node_round a r) (flat_map block_nodes l).
Proof.
  intros a r l P. induction P as [|b l Hb P IH]; [reflexivity|]. cbn [flat_map map]. rewrite map_app, IH. f_equal.
  rewrite (plain_nodes _ Hb), (plain_nodes _ (plain_via a r b Hb)). cbn [node_block_via nb_tags nb_data]. apply nodes_of_via. apply Hb.
Qed.

Lemma node_saves_plain : forall c a b, node_block_saves c a b -> nb_parametric b = 0 -> plain b.
Proof.
  intros c a b [H1 _ _ H2 _ _] P. split; [exact P|]. split; [exact H1|]. rewrite H2, H1. unfold node_width. rewrite P. apply Z.mul_comm.
Qed.

Section Trip22.
Variables (c : cfg) (a : bool) (r : dbl -> dbl).
Hypothesis R : forall x, size_ok x -> finite x -> six_digits_of x (r x).
Variables (s s' : MshSpec).
Hypothesis H : consistent22 c a s.
Hypothesis K : kept22 c a r s s'.
Hypothesis V : validate_spec s = Ok tt.
Hypothesis T : Forall (fun e => el_tag e <= INT_MAX) (mesh_elements (elements s)).

Lemma short_22 : forall t, size_ok t -> (tag_22 a t = t <-> short a t).
Proof.
  intros t Ht. rewrite <- (tag_iff a t Ht). unfold tag_22. destruct a; [tauto|]. split; intro E; symmetry; exact E.
Qed.

Lemma nodes_22_round : Forall (short a) (map n_tag (mesh_nodes (nodes s))) -> Forall size_ok (map n_tag (mesh_nodes (nodes s))) ->
  nodes_22 a r s = map (node_round a r) (mesh_nodes (nodes s)).
Proof.
  intros F Z. unfold nodes_22. apply map_ext_in. intros n I. unfold node_via22, node_round.
  rewrite Forall_map in F, Z. rewrite Forall_forall in F, Z. rewrite (proj2 (short_22 _ (Z n I)) (F n I)). reflexivity.
Qed.

Lemma node_tags_sized : n_num_nodes (nodes s) <> 0 -> Forall size_ok (map n_tag (mesh_nodes (nodes s))).
Proof.
  intro N. rewrite mesh_tags. apply Forall_flat_map. eapply Forall_impl; [|exact (ns_blocks _ _ _ (ok22_nodes _ _ _ H N))].
  intros b B. exact (nbs_tags _ _ _ B).
Qed.

Lemma no_nodes_22 : n_num_nodes (nodes s) = 0 <-> nodes_22 a r s = [].
Proof.
  rewrite (ok22_num_nodes _ _ _ H). unfold nodes_22. split.
  - intro E. apply zlen_zero in E. rewrite E. reflexivity.
  - intro E. apply map_eq_nil in E. rewrite E. reflexivity.
Qed.

Lemma no_elements_22 : e_num_elements (elements s) = 0 <-> elements_22 s = [].
Proof.
  rewrite (ok22_num_elements _ _ _ H). unfold elements_22. split.
  - intro E. apply zlen_zero in E. rewrite E. reflexivity.
  - intro E. apply map_eq_nil in E. rewrite E. reflexivity.
Qed.

Lemma block_22 : forall b, element_block_saves c a b -> gmsh_dim (eb_type b) = Some (eb_dim b) -> element_block_22 b.
Proof.
  intros b [B1 B2 _ (n & B3 & B4 & _) B5 _ _] D. constructor; auto. exists n. auto.
Qed.

(** Elements that keep their tags and dimension. *)
Lemma elements_fixed : e_num_elements (elements s) <> 0 ->
  Forall (fun b => gmsh_dim (eb_type b) = Some (eb_dim b) /\ Forall (short a) (eb_data b)) (e_blocks (elements s)) ->
  elements_22 s = mesh_elements (elements s).
Proof.
  intros N F. unfold elements_22. apply map_same_in. intros e I. unfold mesh_elements in I. apply in_flat_map in I.
  destruct I as (b & Ib & Ie). rewrite Forall_forall in F. destruct (F b Ib) as [D S].
  pose proof (es_blocks _ _ _ (ok22_elements _ _ _ H N)) as B. rewrite Forall_forall in B. specialize (B b Ib).
  pose proof (block_words b (block_22 b B D)) as W.
  assert (W' : Forall (fun t => tag32 t = t) (element_words e)).
  { apply Forall_forall. intros t It. assert (Id : In t (eb_data b)) by (rewrite W; apply in_flat_map; exists e; auto).
    rewrite Forall_forall in S. pose proof (ebs_vals _ _ _ B) as Z. rewrite Forall_forall in Z. specialize (Z t Id).
    apply (tag32_same t Z). specialize (S t Id). unfold short in S.
    destruct a; [|auto]. left. pose proof (ebs_vals32 _ _ _ B eq_refl) as Z3. rewrite Forall_forall in Z3. specialize (Z3 t Id).
    unfold INT_MAX in Z3. lia. }
  unfold element_words in W'. apply Forall_cons_iff in W'. destruct W' as [W1 W2].
  pose proof (element_block_key b e Ie) as EK. unfold element_key in EK. injection EK as K1 K2 K3.
  unfold element_via22, type_dim. rewrite <- K3, D, W1. rewrite (map_same_in _ tag32).
  - rewrite K1, K3. destruct e. reflexivity.
  - rewrite Forall_forall in W2. exact W2.
Qed.

Lemma alike22_to : alike (nanospline c) s s' -> survives c a r s /\ regular a s.
Proof.
  intros [A1 A2 A3 A4 A5 A6 A7]. destruct (valid_counted s V) as [C1 C2].
  assert (E22 : elements_22 s = mesh_elements (elements s)) by (rewrite A3; symmetry; exact (k22_elements _ _ _ _ _ K)).
  assert (ND : n_num_nodes (nodes s) = 0 -> nodes s = n_default).
  { intro E. pose proof (k22_no_nodes _ _ _ _ _ K (proj1 no_nodes_22 E)) as D. rewrite D in A1. cbn in A1.
    destruct A1 as (B1 & B2 & B3 & B4). apply no_blocks_default; assumption. }
  assert (PL : Forall (fun b => nb_parametric b = 0) (n_blocks (nodes s))).
  { eapply forall2_both; [exact A2|exact (k22_node_blocks _ _ _ _ _ K)|]. intros b b' (_ & _ & P & _) Q. rewrite P. apply Q. }
  assert (TG : flat_map nb_tags (n_blocks (nodes s)) = flat_map nb_tags (n_blocks (nodes s'))).
  { apply forall2_flat. eapply forall2_in; [|exact A2]. intros b b' _ _ (_ & _ & _ & E & _). exact E. }
  assert (SH : n_num_nodes (nodes s) <> 0 -> Forall (short a) (map n_tag (mesh_nodes (nodes s)))).
  { intro N. pose proof (node_tags_sized N) as Z. pose proof (k22_nodes _ _ _ _ _ K) as E.
    apply (f_equal (map n_tag)) in E. rewrite mesh_tags, <- TG, <- mesh_tags in E. unfold nodes_22 in E. rewrite map_map in E.
    rewrite <- (map_map n_tag (tag_22 a)) in E. symmetry in E. apply map_fixed in E.
    rewrite Forall_forall in *. intros t I. apply short_22; auto. }
  assert (SE : e_num_elements (elements s) <> 0 -> Forall (fun b => Forall (short a) (eb_data b)) (e_blocks (elements s))).
  { intro N. pose proof (map_fixed _ _ _ E22) as F. rewrite Forall_forall in *. intros b Ib. rewrite Forall_forall. intros t It.
    assert (B : element_block_22 b).
    { pose proof (k22_element_blocks _ _ _ _ _ K) as B. rewrite <- A3, Forall_forall in B. auto. }
    pose proof (eb22_vals _ B) as Z. rewrite Forall_forall in Z. specialize (Z t It). rewrite (block_words b B) in It.
    apply in_flat_map in It. destruct It as (e & Ie & It). assert (Im : In e (mesh_elements (elements s))) by (apply in_flat_map; exists b; auto).
    specialize (F e Im). apply short_22; [exact Z|]. unfold tag_22. destruct a; [reflexivity|].
    destruct e as [e1 e2 e3 e4 e5]. unfold element_via22 in F. cbn in F, It. injection F as F1 F2 F3.
    destruct It as [<-|It]; [exact F2|]. apply map_fixed in F3. rewrite Forall_forall in F3. auto. }
  split; constructor.
  - destruct (Z.eq_dec (n_num_nodes (nodes s)) 0) as [N|N]; [rewrite (ND N); constructor|].
    pose proof (ns_blocks _ _ _ (ok22_nodes _ _ _ H N)) as B.
    assert (P : Forall plain (n_blocks (nodes s))).
    { rewrite Forall_forall in *. intros b I. eapply node_saves_plain; auto. }
    pose proof (k22_nodes _ _ _ _ _ K) as E. rewrite (nodes_22_round (SH N) (node_tags_sized N)) in E.
    unfold mesh_nodes in E. rewrite <- (plain_flat a r _ P) in E.
    rewrite flat_of_map in E. symmetry in E.
    eapply flat_split in E; [| |exact A2].
    + eapply forall2_both; [eapply forall2_in; [|exact E]|exact (k22_node_blocks _ _ _ _ _ K)|].
      * intros b b' I _ Q. exact (conj I Q).
      * intros b b' (I & (_ & _ & P' & _ & Q) & E') B'. apply plain_22 in B'. rewrite Forall_forall in P, B.
        rewrite (plain_nodes _ (plain_via a r b (P b I))), (plain_nodes _ B') in E'. apply (f_equal (flat_map node_values)) in E'.
        rewrite !nodes_of_values in E'; [|apply B'|apply (plain_via a r b (P b I))]. rewrite <- E' in Q. cbn [node_block_via nb_data] in Q.
        apply (stays_list r R a); [exact (nbs_vals _ _ _ (B b I))|exact Q].
    + intros b b' (_ & _ & _ & Q & _). unfold block_nodes. rewrite !nodes_of_length. cbn. rewrite Q. reflexivity.
  - exact ND.
  - intro E. rewrite A3. apply (k22_no_elements _ _ _ _ _ K). apply no_elements_22. exact E.
  - destruct (k22_data _ _ _ _ _ K) as (E1 & E2 & E3). rewrite E1 in A4. rewrite E2 in A5. rewrite E3 in A6.
    destruct H. rewrite !Forall_app.
    rewrite <- (datas_iff c a r R false false), <- (datas_iff c a r R false false), <- (datas_iff c a r R true true) by assumption. auto.
  - intro E. specialize (A7 E). pose proof (k22_splines _ _ _ _ _ K) as S. rewrite E in S. injection S as _ S _. rewrite S in A7.
    pose proof (ok22_splines _ _ _ H E) as S'. apply (curves_iff c a r R); [apply (so_curves _ _ _ S')|exact A7].
  - destruct (Z.eq_dec (n_num_nodes (nodes s)) 0) as [N|N]; [rewrite (ND N); constructor|].
    specialize (SH N). rewrite mesh_tags, Forall_flat_map in SH. rewrite Forall_forall in *. intros b I.
    split; [auto|]. split; [|auto].
    assert (F : Forall (fun b => nb_tags b <> []) (n_blocks (nodes s))).
    { eapply forall2_both; [exact A2|exact (k22_node_full _ _ _ _ _ K)|]. intros x y (_ & _ & _ & Q & _) Q'. rewrite Q. exact Q'. }
    rewrite Forall_forall in F. auto.
  - apply (nd_map _ _ node_key). rewrite (forall2_maps _ _ _ node_key node_key _ (n_blocks (nodes s'))).
    + apply (nd_map _ _ node_key). exact (k22_node_runs _ _ _ _ _ K).
    + eapply forall2_in; [|exact A2]. intros b b' _ _ (E1 & E2 & _). unfold node_key. congruence.
  - intros b t Ib It. rewrite <- E22.
    assert (F : Forall (fun b => forall t, In t (nb_tags b) -> classified (elements_22 s) t (node_key b)) (n_blocks (nodes s))).
    { eapply (forall2_both _ _ _ _ (fun b => forall t, In t (nb_tags b) -> classified (elements_22 s) t (node_key b))); [exact A2| |].
      - apply Forall_forall. intros b' I' t' J. exact (k22_class _ _ _ _ _ K b' t' I' J).
      - intros x y (E1 & E2 & _ & E3 & _) Q. unfold node_key. rewrite E1, E2, E3. exact Q. }
    rewrite Forall_forall in F. auto.
  - intro N. destruct A1 as (_ & _ & E1 & E2). rewrite E1, E2.
    assert (NE : nodes_22 a r s <> []) by (rewrite <- no_nodes_22; exact N).
    destruct (k22_min _ _ _ _ _ K NE) as ((n1 & I1 & <-) & (n2 & I2 & <-) & _).
    rewrite (nodes_22_round (SH N) (node_tags_sized N)) in I1, I2. apply in_map_iff in I1, I2.
    destruct I1 as (m1 & <- & I1), I2 as (m2 & <- & I2). cbn [node_round n_tag]. split; apply in_map; assumption.
  - destruct (Z.eq_dec (e_num_elements (elements s)) 0) as [N|N].
    + apply no_elements_22 in N. rewrite A3, (k22_no_elements _ _ _ _ _ K N). constructor.
    + specialize (SE N). pose proof (k22_element_blocks _ _ _ _ _ K) as B. rewrite <- A3 in B. rewrite Forall_forall in *.
      intros b I. split; [exact (eb22_dim _ (B b I))|auto].
  - rewrite A3. exact (k22_element_runs _ _ _ _ _ K).
  - intro N. assert (NE : elements_22 s <> []) by (rewrite <- no_elements_22; exact N).
    destruct (k22_element_min _ _ _ _ _ K NE) as ((n1 & I1 & E1) & (n2 & I2 & E2) & _).
    + apply Forall_forall. intros e I. split.
      * unfold elements_22 in I. apply in_map_iff in I. destruct I as (e' & <- & _). cbn [element_via22 el_tag].
        pose proof (tag32_range (el_tag e')). lia.
      * rewrite E22 in I. rewrite Forall_forall in T. auto.
    + rewrite <- A3 in E1, E2. rewrite <- E1, <- E2. rewrite E22 in I1, I2. split; apply in_map; assumption.
Qed.

Lemma alike22_from : survives c a r s -> regular a s -> alike (nanospline c) s s'.
Proof.
  intros [B1 B2 B3 B4 B5] [G1 G2 G3 G4 G5 G6 G7]. destruct (valid_counted s V) as [C1 C2].
  assert (TY : typed s).
  { destruct (Z.eq_dec (e_num_elements (elements s)) 0) as [N|N]; unfold typed; [rewrite (B3 N); constructor|].
    eapply Forall_impl; [|exact (es_blocks _ _ _ (ok22_elements _ _ _ H N))]. intros b B. apply (ebs_num _ _ _ B). }
  destruct (proj1 (validate_ok s TY) V) as (VH & VN & VE).
  assert (EE : elements s = elements s').
  { destruct (Z.eq_dec (e_num_elements (elements s)) 0) as [N|N].
    - rewrite (B3 N). symmetry. apply (k22_no_elements _ _ _ _ _ K). apply no_elements_22. exact N.
    - pose proof (elements_fixed N G5) as E22. pose proof (es_blocks _ _ _ (ok22_elements _ _ _ H N)) as B.
      assert (BL : e_blocks (elements s) = e_blocks (elements s')).
      { apply element_blocks_unique.
        - rewrite Forall_forall in *. intros b I. apply block_22; [auto|]. apply G5. exact I.
        - exact (k22_element_blocks _ _ _ _ _ K).
        - eapply Forall_impl; [|exact VE]. intros b [_ [Q _]]. lia.
        - exact (k22_element_full _ _ _ _ _ K).
        - exact G6.
        - exact (k22_element_runs _ _ _ _ _ K).
        - pose proof (k22_elements _ _ _ _ _ K) as E. rewrite E22 in E. symmetry. exact E. }
      assert (NE : elements_22 s <> []) by (rewrite <- no_elements_22; exact N).
      assert (RG : Forall (fun e => element_range s (el_tag e)) (mesh_elements (elements s))).
      { apply Forall_forall. intros e I. apply in_flat_map in I. destruct I as (b & Ib & Ie). rewrite Forall_forall in B, G5, VE.
        destruct (VE b Ib) as [(rows & D & F) Q]. destruct (ebs_data _ _ _ (B b Ib)) as (n & GN & LN & _).
        destruct (gmsh_nodes_spec _ _ GN) as (_ & NP & _).
        assert (W : zlen (eb_data b) / eb_num b = n + 1) by (rewrite LN, Z.mul_comm; apply Z.div_mul; destruct Q; lia).
        assert (CU : forall num rw, Forall (fun p => zlen (snd p) + 1 = n + 1 /\ element_range s (fst p)) rw ->
          Forall (fun l => element_range s (hd 0 l)) (cut (Z.to_nat (n + 1)) num (flat_map (fun p => fst p :: snd p) rw)) \/
          (List.length rw < num)%nat).
        { induction num as [|m IH]; intros rw FR; [left; constructor|]. destruct rw as [|p rw]; [right; cbn; lia|].
          apply Forall_cons_iff in FR. destruct FR as [[P1 P2] FR]. cbn [flat_map cut].
          assert (LK : Z.to_nat (n + 1) = List.length (fst p :: snd p)) by (unfold zlen in P1; cbn [List.length]; lia).
          change ((fst p :: snd p ++ flat_map (fun p => fst p :: snd p) rw)) with ((fst p :: snd p) ++ flat_map (fun p => fst p :: snd p) rw).
          assert (F1 : forall q : list Z, firstn (Z.to_nat (n + 1)) ((fst p :: snd p) ++ q) = fst p :: snd p)
            by (intro q; rewrite LK, firstn_app, firstn_all, Nat.sub_diag, firstn_O, app_nil_r; reflexivity).
          assert (F2 : forall q : list Z, skipn (Z.to_nat (n + 1)) ((fst p :: snd p) ++ q) = q)
            by (intro q; rewrite LK, skipn_app, skipn_all, Nat.sub_diag; reflexivity).
          rewrite F1, F2.
          destruct (IH rw FR) as [L|L]; [left; constructor; [exact P2|exact L]|right; cbn; lia]. }
        assert (FR : Forall (fun p => zlen (snd p) + 1 = n + 1 /\ element_range s (fst p)) rows).
        { eapply Forall_impl; [|exact F]. intros p (P1 & P2 & _). rewrite W in P1. auto. }
        unfold block_elements in Ie. rewrite GN, D in Ie. apply in_map_iff in Ie. destruct Ie as (l & <- & Il).
        cbn [element_of el_tag]. destruct (CU (Z.to_nat (eb_num b)) rows FR) as [L|L].
        - rewrite Forall_forall in L. auto.
        - exfalso. assert (X : zlen (eb_data b) = zlen rows * (n + 1)).
          { rewrite D. clear - FR. induction FR as [|p rows [P _] FR IH]; [reflexivity|]. cbn [flat_map].
            rewrite zlen_app, IH, !zlen_cons. lia. }
          rewrite LN in X. apply Z.mul_reg_r in X; [|lia]. unfold zlen in X. lia. }
      assert (SM : Forall (fun e => 0 <= el_tag e <= INT_MAX) (elements_22 s)).
      { apply Forall_forall. intros e I. split.
        * unfold elements_22 in I. apply in_map_iff in I. destruct I as (e' & <- & _). cbn [element_via22 el_tag].
          pose proof (tag32_range (el_tag e')). lia.
        * rewrite E22 in I. rewrite Forall_forall in T. auto. }
      destruct (k22_element_min _ _ _ _ _ K NE SM) as ((n1 & I1 & E1) & (n2 & I2 & E2) & U). rewrite E22 in I1, I2, U.
      destruct (G7 N) as [M1 M2]. apply in_map_iff in M1, M2. destruct M1 as (m1 & X1 & M1), M2 as (m2 & X2 & M2).
      rewrite Forall_forall in RG. pose proof (RG _ I1) as Y1. pose proof (RG _ I2) as Y2. unfold element_range in Y1, Y2.
      pose proof (U _ M1) as Y3. pose proof (U _ M2) as Y4.
      assert (RE : e_min (elements s) = e_min (elements s') /\ e_max (elements s) = e_max (elements s')) by lia.
      pose proof (k22_num_elements _ _ _ _ _ K) as NN. pose proof (k22_element_num _ _ _ _ _ K) as NB.
      rewrite <- BL, <- C2 in NB. clear - RE NN NB BL. destruct (elements s) as [q1 q2 q3 q4 q5], (elements s') as [p1 p2 p3 p4 p5].
      cbn in *. destruct RE. congruence. }
  assert (NN : (n_num_blocks (nodes s) = n_num_blocks (nodes s') /\ n_num_nodes (nodes s) = n_num_nodes (nodes s') /\
      n_min (nodes s) = n_min (nodes s') /\ n_max (nodes s) = n_max (nodes s')) /\
     Forall2 alike_node_block (n_blocks (nodes s)) (n_blocks (nodes s'))).
  { destruct (Z.eq_dec (n_num_nodes (nodes s)) 0) as [N|N].
    - pose proof (k22_no_nodes _ _ _ _ _ K (proj1 no_nodes_22 N)) as D. rewrite (B2 N), D. repeat split. constructor.
    - pose proof (ns_blocks _ _ _ (ok22_nodes _ _ _ H N)) as B.
      assert (P : Forall plain (n_blocks (nodes s))).
      { rewrite Forall_forall in *. intros b I. eapply node_saves_plain; [auto|]. apply G1. exact I. }
      assert (SH : Forall (short a) (map n_tag (mesh_nodes (nodes s)))).
      { rewrite mesh_tags, Forall_flat_map. eapply Forall_impl; [|exact G1]. intros b (_ & _ & Q). exact Q. }
      pose proof (nodes_22_round SH (node_tags_sized N)) as N22.
      assert (E22 : elements_22 s = mesh_elements (elements s)).
      { rewrite EE. symmetry. exact (k22_elements _ _ _ _ _ K). }
      assert (BL : n_blocks (nodes s') = map (node_block_via a r) (n_blocks (nodes s))).
      { apply (node_blocks_unique (elements_22 s)).
        - eapply Forall_impl; [|exact (k22_node_blocks _ _ _ _ _ K)]. exact plain_22.
        - apply Forall_map. eapply Forall_impl; [|exact P]. intros b Q. apply plain_via, Q.
        - exact (k22_node_full _ _ _ _ _ K).
        - apply Forall_map. eapply Forall_impl; [|exact G1]. intros b (_ & Q & _). exact Q.
        - exact (k22_node_runs _ _ _ _ _ K).
        - apply (neighbours_map _ _ _ node_key); [reflexivity|]. exact G2.
        - intros b t Hb Ht. apply in_app_or in Hb. destruct Hb as [Hb|Hb].
          + exact (k22_class _ _ _ _ _ K b t Hb Ht).
          + apply in_map_iff in Hb. destruct Hb as (b' & <- & Hb). rewrite E22. exact (G3 b' t Hb Ht).
        - rewrite (plain_flat a r _ P). pose proof (k22_nodes _ _ _ _ _ K) as E. rewrite N22 in E. exact E. }
      assert (NE : nodes_22 a r s <> []) by (rewrite <- no_nodes_22; exact N).
      destruct (k22_min _ _ _ _ _ K NE) as ((n1 & I1 & E1) & (n2 & I2 & E2) & U). rewrite N22 in I1, I2, U.
      apply in_map_iff in I1, I2. destruct I1 as (k1 & <- & I1), I2 as (k2 & <- & I2). cbn [node_round n_tag] in E1, E2.
      destruct (G4 N) as [M1 M2]. apply in_map_iff in M1, M2. destruct M1 as (m1 & X1 & M1), M2 as (m2 & X2 & M2).
      assert (RG : forall n, In n (mesh_nodes (nodes s)) -> node_range s (n_tag n)).
      { intros n I. apply (in_map n_tag) in I. rewrite mesh_tags in I. apply in_flat_map in I. destruct I as (b & Ib & It).
        rewrite Forall_forall in VN. destruct (VN b Ib) as [[_ Q _] _]. rewrite Forall_forall in Q. auto. }
      pose proof (RG _ I1) as Y1. pose proof (RG _ I2) as Y2. unfold node_range in Y1, Y2.
      pose proof (U _ (in_map (node_round a r) _ _ M1)) as Y3. pose proof (U _ (in_map (node_round a r) _ _ M2)) as Y4.
      cbn [node_round n_tag] in Y3, Y4.
      split.
      + split; [rewrite C1, (k22_node_num _ _ _ _ _ K), BL, zlen_map; reflexivity|].
        split; [symmetry; exact (k22_num_nodes _ _ _ _ _ K)|]. lia.
      + rewrite BL. apply (forall2_map _ _ _ (fun _ => True)); [|apply Forall_forall; auto]. intros b I. split; [auto|intros _].
        rewrite Forall_forall in B, B1. unfold alike_node_block, node_block_via. cbn [nb_dim nb_tag nb_parametric nb_tags nb_data].
        rewrite (stays_list r R a _ (nbs_vals _ _ _ (B b I))). auto 7. }
  destruct NN as [NN1 NN2]. destruct (k22_data _ _ _ _ _ K) as (D1 & D2 & D3). rewrite !Forall_app in B4. destruct B4 as (B4 & B6 & B7).
  constructor; try assumption.
  - rewrite D1. apply (datas_iff c a r R false); [apply (ok22_node_data _ _ _ H)|exact B4].
  - rewrite D2. apply (datas_iff c a r R false); [apply (ok22_element_data _ _ _ H)|exact B6].
  - rewrite D3. apply (datas_iff c a r R true); [apply (ok22_element_node_data _ _ _ H)|exact B7].
  - intro E. pose proof (k22_splines _ _ _ _ _ K) as S. rewrite E in S. injection S as _ S _. rewrite S.
    apply (curves_iff c a r R); [apply (so_curves _ _ _ (ok22_splines _ _ _ H E))|auto].
Qed.

Lemma sized22 : decides (assert_same c s s') (alike (nanospline c) s s').
Proof.
  destruct (k22_data _ _ _ _ _ K) as (D1 & D2 & D3). destruct (valid_counted s V) as [C1 C2].
  destruct (datas_sized c a r R _ _ (ok22_node_data _ _ _ H)) as [X1 Y1].
  destruct (datas_sized c a r R _ _ (ok22_element_data _ _ _ H)) as [X2 Y2].
  destruct (datas_sized c a r R _ _ (ok22_element_node_data _ _ _ H)) as [X3 Y3].
  apply same_dec.
  - split; assumption.
  - split; [exact (k22_node_num _ _ _ _ _ K)|exact (k22_element_num _ _ _ _ _ K)].
  - intro E. split.
    + destruct (Z.eq_dec (n_num_nodes (nodes s)) 0) as [N|N].
      * rewrite (k22_no_nodes _ _ _ _ _ K (proj1 no_nodes_22 N)) in E. cbn [n_default n_blocks] in E. rewrite zlen_nil in E.
        apply zlen_zero in E. rewrite E. constructor.
      * eapply Forall_impl; [|exact (ns_blocks _ _ _ (ok22_nodes _ _ _ H N))]. intros b B. exact (dbls_sized _ _ (nbs_vals _ _ _ B)).
    + eapply Forall_impl; [|exact (k22_node_blocks _ _ _ _ _ K)]. intros b B. exact (nb22_vals _ B).
  - rewrite !Forall_app. auto.
  - rewrite D1, D2, D3, !Forall_app. auto.
  - intro E. pose proof (k22_splines _ _ _ _ _ K) as S. rewrite E in S. injection S as _ S _. rewrite S.
    apply (curves_sized c a r R). apply (so_curves _ _ _ (ok22_splines _ _ _ H E)).
Qed.
End Trip22.

Lemma pass22 : forall c a s, consistent22 c a (to22 a s) -> validate_spec s = Ok tt ->
  Forall (fun e => el_tag e <= INT_MAX) (mesh_elements (elements s)) ->
  decides (save_and_load c (str "2.2") (if a then 0 else 1) s) (survives c a r6 s /\ regular a s).
Proof.
  intros c a s H V T. destruct (roundtrip22 c a _ H) as (b & s' & S & L & K).
  erewrite test_unfold; [|exact V|exact S|exact L].
  assert (V' : validate_spec (to22 a s) = Ok tt) by exact V.
  eapply dec_iff; [exact (sized22 c a r6 ascii_round_six _ _ H K V')|].
  assert (X1 : survives c a r6 (to22 a s) <-> survives c a r6 s) by (split; intros []; constructor; assumption).
  assert (X2 : regular a (to22 a s) <-> regular a s) by (split; intros []; constructor; assumption).
  rewrite <- X1, <- X2. split.
  - exact (alike22_to c a r6 ascii_round_six _ _ H K V' T).
  - intros [S1 S2]. exact (alike22_from c a r6 ascii_round_six _ _ H K V' T S1 S2).
Qed.
