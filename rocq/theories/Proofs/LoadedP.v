(** Loaded specs are consistent, whatever the bytes. *)

From Verif Require Import Model.LoadMsh Spec.Loaded Spec.Files22 Proofs.BytesP Proofs.RtStep Proofs.Hoare Proofs.ElemP Proofs.TriP
  Proofs.ExtP Proofs.PostP Proofs.Load22P Proofs.File22P.

Ltac Zify.zify_post_hook ::= idtac.

Ltac prj := cbn [nb_dim nb_tag nb_parametric nb_num nb_tags nb_data eb_dim eb_tag eb_type eb_num eb_data
  n_num_blocks n_num_nodes n_min n_max n_blocks e_num_blocks e_num_elements e_min e_max e_blocks].

Lemma tri_fill : forall (U : ub -> Prop) A cnt (f : A -> M A) (P : A -> Prop) v, U OutOfBounds -> Forall P v ->
  (forall x, P x -> tri (f x) P U) -> tri (fill cnt f v) (fun l => zlen l = cnt /\ Forall P l) U.
Proof.
  intros U A cnt f P v HU HF H. unfold fill. destruct (cnt =? zlen v) eqn:E; [|apply tri_undef; exact HU].
  apply Z.eqb_eq in E. rewrite E. exact (tri_mapM U _ _ f P P v HF H).
Qed.

Lemma size_mod : forall a b, to_size (a * to_size b) = (a * b) mod 2 ^ 64.
Proof. intros a b. unfold to_size. change (2 ^ 64) with two64. apply Zmult_mod_idemp_r. Qed.

Definition width (par dim : Z) : Z := if par =? 1 then 3 + dim else 3.

Lemma tri_epn : forall (U : ub -> Prop) par dim, U SignedOverflow ->
  tri (lift (entries_per_node par dim)) (fun e => e = to_size (width par dim)) U.
Proof.
  intros U par dim HU. apply tri_lift. unfold entries_per_node, width.
  assert (E : 3 + (if par =? 1 then dim else 0) = if par =? 1 then 3 + dim else 3) by (destruct (par =? 1); lia).
  rewrite E. cbv zeta. destruct (INT_MAX <? _); [exact HU|reflexivity].
Qed.

Lemma tri_epn_sum : forall (U : ub -> Prop) par dim, U SignedOverflow ->
  tri (lift (entries_per_node par dim)) (fun e => e = to_size (width par dim) /\ (par = 1 -> dim <= INT_MAX - 3)) U.
Proof.
  intros U par dim HU. apply tri_lift. unfold entries_per_node, width.
  assert (E : 3 + (if par =? 1 then dim else 0) = if par =? 1 then 3 + dim else 3) by (destruct (par =? 1); lia).
  rewrite E. cbv zeta. destruct (INT_MAX <? _) eqn:L; [exact HU|]. split; [reflexivity|].
  intros ->. apply Z.ltb_ge in L. cbn [Z.eqb Pos.eqb] in L. lia.
Qed.

Lemma tri_mono : forall A (m : M A) Q (U : ub -> Prop), tri m Q U -> tri m Q any_ub.
Proof. intros A m Q U H s. specialize (H s). destruct (m s) as [[a s1]| | | |]; auto. exact I. Qed.

Lemma bytes_words : forall a b, to_size (a * b) <= 1152921504606846975 -> to_size (to_size (8 * a) * b) = 8 * to_size (a * b).
Proof.
  intros a b H. pose proof (to_size_range (a * b)) as [R _].
  rewrite <- (to_size_id (8 * to_size (a * b))) by (unfold two64; lia).
  unfold to_size. rewrite Zmult_mod_idemp_l, Zmult_mod_idemp_r. f_equal. ring.
Qed.

(** ** 4.1 sections *)

Lemma node_block_binary_tri : forall (U : ub -> Prop) c b, U SignedOverflow ->
  tri (v41_node_block_binary c b) node_block_loaded U.
Proof.
  intros U c b HU. unfold v41_node_block_binary. rd. rd. rd. rd. rd.
  eapply tri_bind; [apply (tri_resize U _ c sz_size 0 _ (nb_tags b) (fun _ => True)); [apply H2|exact I|apply Forall_forall; auto]|].
  intros tags0 (L1 & F1 & B1 & _). change sz_size with 8 in *. change sz_double with 8 in *. rewrite PD8 in B1.
  eapply tri_bind; [apply (tri_raw_into U 8 _ _ (fun _ => True) size_ok tags0);
    [reflexivity|rewrite L1; apply to_size_id; unfold size_ok, two64 in *; lia|exact F1|intros; apply tri_raw_size]|].
  intros tags (L2 & F2). rd.
  eapply tri_bind; [apply tri_epn_sum; exact HU|]. intros e [-> HX].
  eapply tri_bind; [apply (tri_resize U _ c 8 0 _ (nb_data b) (fun _ => True)); [apply to_size_range|exact I|apply Forall_forall; auto]|].
  intros data0 (L3 & F3 & B3 & _). rewrite PD8 in B3.
  eapply tri_bind; [apply (tri_raw_into U 8 _ _ (fun _ => True) size_ok data0);
    [reflexivity| |exact F3|intros; apply tri_raw_double]|].
  { etransitivity; [|apply f_equal; symmetry; exact L3]. exact (bytes_words _ _ B3). }
  intros data (L4 & F4). rd. apply tri_ret. split; prj; try assumption; try lia.
  etransitivity; [exact L4|]. rewrite L3, size_mod. reflexivity.
Qed.

Lemma bind_ok : forall A B (m : M A) (f : A -> M B) s a s', m s = Ok (a, s') -> bind m f s = f a s'.
Proof. intros A B m f s a s' E. unfold bind. rewrite E. reflexivity. Qed.

Lemma node_block_overflow : forall c b s u, v41_node_block_binary c b s = Undef u ->
  let (dim, s1) := rd_raw_int (nb_dim b) s in let (tag, s2) := rd_raw_int (nb_tag b) s1 in
  let (par, s3) := rd_raw_int (nb_parametric b) s2 in par = 1 /\ INT_MAX - 3 < dim.
Proof.
  intros c b s u E. unfold v41_node_block_binary in E.
  destruct (rd_raw_int (nb_dim b) s) as [dim s1] eqn:E1. destruct (rd_raw_int (nb_tag b) s1) as [tag s2] eqn:E2.
  destruct (rd_raw_int (nb_parametric b) s2) as [par s3] eqn:E3.
  rewrite (bind_ok _ _ _ _ s dim s1) in E by (unfold op; rewrite E1; reflexivity).
  rewrite (bind_ok _ _ _ _ s1 tag s2) in E by (unfold op; rewrite E2; reflexivity).
  rewrite (bind_ok _ _ _ _ s2 par s3) in E by (unfold op; rewrite E3; reflexivity).
  destruct (INT_MAX <? 3 + (if par =? 1 then dim else 0)) eqn:EO.
  - apply Z.ltb_lt in EO. destruct (par =? 1) eqn:EP; [apply Z.eqb_eq in EP|exfalso; unfold INT_MAX in EO; lia]. split; [exact EP|lia].
  - exfalso. set (U := fun _ : ub => False).
    match type of E with ?m s3 = _ => assert (G : tri m (fun _ => True) U) end.
    { rd. rd.
      eapply tri_bind; [apply (tri_resize U _ c sz_size 0 _ (nb_tags b) (fun _ => True)); [apply H|exact I|apply Forall_forall; auto]|].
      intros tags0 (L1 & F1 & B1 & _). change sz_size with 8 in *. change sz_double with 8 in *. rewrite PD8 in B1.
      eapply tri_bind; [apply (tri_raw_into U 8 _ _ (fun _ => True) size_ok tags0);
        [reflexivity|rewrite L1; apply to_size_id; unfold size_ok, two64 in *; lia|exact F1|intros; apply tri_raw_size]|].
      intros tags (L2 & F2). rd.
      apply (tri_bind _ _ _ _ _ (fun _ => True)); [apply tri_lift; unfold entries_per_node; cbv zeta; rewrite EO; exact I|]. intros e _.
      eapply tri_bind; [apply (tri_resize U _ c 8 0 _ (nb_data b) (fun _ => True)); [apply to_size_range|exact I|apply Forall_forall; auto]|].
      intros data0 (L3 & F3 & B3 & _). rewrite PD8 in B3.
      eapply tri_bind; [apply (tri_raw_into U 8 _ _ (fun _ => True) size_ok data0);
        [reflexivity| |exact F3|intros; apply tri_raw_double]|].
      { etransitivity; [|apply f_equal; symmetry; exact L3]. exact (bytes_words _ _ B3). }
      intros data _. rd. apply tri_ret. exact I. }
    specialize (G s3). rewrite E in G. exact G.
Qed.

Record node_block_vals (b : NodeBlock) : Prop := {
  nv_dim : int_ok (nb_dim b); nv_tag : int_ok (nb_tag b); nv_par : int_ok (nb_parametric b);
  nv_num : size_ok (nb_num b); nv_tags : Forall size_ok (nb_tags b); nv_data : Forall size_ok (nb_data b) }.

Lemma loaded_node_vals : forall b, node_block_loaded b -> node_block_vals b.
Proof. intros b [A B C D E F G H I]. split; assumption. Qed.

Lemma node_block_ascii_tri : forall (U : ub -> Prop) c b, U SignedOverflow -> U OutOfBounds -> node_block_vals b ->
  tri (v41_node_block_ascii c b) node_block_loaded U.
Proof.
  intros U c b HU HO [V1 V2 V3 V4 V5 V6]. unfold v41_node_block_ascii. rd. rd. rd. rd. rd.
  assert (Z0 : size_ok 0) by (unfold size_ok, two64; lia).
  eapply tri_bind; [apply (tri_resize U _ c sz_size 0 _ (nb_tags b) size_ok); [apply H2|exact Z0|exact V5]|].
  intros tags0 (L1 & F1 & _ & _).
  eapply tri_bind; [apply (tri_mapM U _ _ _ size_ok size_ok tags0 F1); intros; apply tri_size; assumption|].
  intros tags (L2 & F2). rd. rd.
  eapply tri_bind; [apply tri_epn_sum; exact HU|]. intros e [-> HX].
  eapply tri_bind; [apply (tri_resize U _ c sz_double 0 _ (nb_data b) size_ok); [apply to_size_range|exact Z0|exact V6]|].
  intros data0 (L3 & F3 & _ & _).
  apply (tri_bind _ _ _ _ _ (fun l => zlen l = zlen data0 /\ Forall size_ok l)).
  { unfold fill. destruct (_ =? _); [|apply tri_undef; exact HO].
    apply (tri_mapM U _ _ _ size_ok size_ok data0 F3). intros; apply tri_double; assumption. }
  intros data (L4 & F4). rd. apply tri_ret. split; prj; try assumption; try lia.
  etransitivity; [exact L4|]. rewrite L3, size_mod. reflexivity.
Qed.

Lemma tri_npe : forall (U : ub -> Prop) t, tri (lift (nodes_per_element t)) (fun n => gmsh_nodes t = Some n /\ 1 <= n <= 56) U.
Proof.
  intros U t. eapply tri_weaken; [apply npe_tri|]. intros n E. split; [exact E|]. apply (gmsh_nodes_spec t n E).
Qed.

Lemma element_block_binary_tri : forall (U : ub -> Prop) c b, tri (v41_element_block_binary c b) element_block_loaded U.
Proof.
  intros U c b. unfold v41_element_block_binary. rd. rd. rd. rd.
  eapply tri_bind; [apply tri_npe|]. intros n [En Rn].
  eapply tri_bind; [apply (tri_resize U _ c sz_size 0 _ (eb_data b) (fun _ => True)); [apply to_size_range|exact I|apply Forall_forall; auto]|].
  intros data0 (L3 & F3 & _ & _).
  eapply tri_bind; [apply (tri_raw_array U _ (fun _ => True) size_ok data0 F3); intros; apply tri_raw_size|].
  intros data (L4 & F4). rd. apply tri_ret. split; prj; try assumption; try lia.
  exists n. split; [exact En|]. rewrite L4, L3. reflexivity.
Qed.

Record element_block_vals (b : ElementBlock) : Prop := {
  ev_dim : int_ok (eb_dim b); ev_tag : int_ok (eb_tag b); ev_type : int_ok (eb_type b);
  ev_num : size_ok (eb_num b); ev_data : Forall size_ok (eb_data b) }.

Lemma loaded_element_vals : forall b, element_block_loaded b -> element_block_vals b.
Proof.
  intros b [A B D (n & E & F) G]. split; try assumption. destruct (gmsh_nodes_spec _ _ E) as (_ & _ & T).
  unfold int_ok, INT_MIN, INT_MAX. lia.
Qed.

Lemma element_block_ascii_tri : forall (U : ub -> Prop) c b, U OutOfBounds -> element_block_vals b ->
  tri (v41_element_block_ascii c b) element_block_loaded U.
Proof.
  intros U c b HO [V1 V2 V3 V4 V5]. unfold v41_element_block_ascii. rd. rd. rd. rd.
  assert (Z0 : size_ok 0) by (unfold size_ok, two64; lia).
  eapply tri_bind; [apply tri_npe|]. intros n [En Rn].
  eapply tri_bind; [apply (tri_resize U _ c sz_size 0 _ (eb_data b) size_ok); [apply to_size_range|exact Z0|exact V5]|].
  intros data0 (L3 & F3 & _ & _).
  apply (tri_bind _ _ _ _ _ (fun l => zlen l = zlen data0 /\ Forall size_ok l)).
  { unfold fill. destruct (_ =? _); [|apply tri_undef; exact HO].
    apply (tri_mapM U _ _ _ size_ok size_ok data0 F3). intros; apply tri_size; assumption. }
  intros data (L4 & F4). rd. apply tri_ret. split; prj; try assumption; try lia.
  exists n. split; [exact En|]. rewrite L4, L3. reflexivity.
Qed.

(** ** Sections *)

Record nodes_inv (n : Nodes) : Prop := {
  ni_num : n_num_blocks n = zlen (n_blocks n);
  ni_fits : zlen (n_blocks n) <= PTRDIFF_MAX / 72;
  ni_nums : size_ok (n_num_nodes n) /\ size_ok (n_min n) /\ size_ok (n_max n);
  ni_all : Forall node_block_loaded (n_blocks n) }.

Record elements_inv (e : Elements) : Prop := {
  ei_num : e_num_blocks e = zlen (e_blocks e);
  ei_fits : zlen (e_blocks e) <= PTRDIFF_MAX / 48;
  ei_nums : size_ok (e_num_elements e) /\ size_ok (e_min e) /\ size_ok (e_max e);
  ei_all : Forall element_block_loaded (e_blocks e) }.

Lemma nodes_binary_tri : forall (U : ub -> Prop) c n, U SignedOverflow -> tri (v41_load_nodes_binary c n) nodes_inv U.
Proof.
  intros U c n HU. unfold v41_load_nodes_binary. rd. rd. rd. rd. rd. rd.
  eapply tri_bind; [apply (tri_resize U _ c sz_NodeBlock nb_default _ (n_blocks n) (fun _ => True)); [apply H|exact I|apply Forall_forall; auto]|].
  intros bl0 (L1 & F1 & B1 & _).
  eapply tri_bind; [apply (tri_mapM U _ _ _ (fun _ => True) node_block_loaded bl0 F1); intros; apply node_block_binary_tri; exact HU|].
  intros bl (L2 & F2). change sz_NodeBlock with 72 in B1. apply tri_ret. split; prj; try assumption; try lia. auto.
Qed.

Lemma node_default_vals : node_block_vals nb_default.
Proof. split; cbn; try constructor; unfold int_ok, size_ok, INT_MIN, INT_MAX, two64; lia. Qed.
Lemma element_default_vals : element_block_vals eb_default.
Proof. split; cbn; try constructor; unfold int_ok, size_ok, INT_MIN, INT_MAX, two64; lia. Qed.

Lemma nodes_ascii_tri : forall (U : ub -> Prop) c n, U SignedOverflow -> U OutOfBounds -> nodes_inv n ->
  tri (v41_load_nodes_ascii c n) nodes_inv U.
Proof.
  intros U c n HU HO [I1 I2 (I3 & I4 & I5) I6]. unfold v41_load_nodes_ascii.
  assert (S0 : size_ok (n_num_blocks n)).
  { rewrite I1. rewrite PD72 in I2. pose proof (zlen_nonneg _ (n_blocks n)). unfold size_ok, two64. lia. }
  rd. rd. rd. rd. rd.
  eapply tri_bind; [apply (tri_resize U _ c sz_NodeBlock nb_default _ (n_blocks n) node_block_vals);
    [apply H|apply node_default_vals|eapply Forall_impl; [|exact I6]; exact loaded_node_vals]|].
  intros bl0 (L1 & F1 & B1 & _).
  eapply tri_bind; [apply (tri_mapM U _ _ _ node_block_vals node_block_loaded bl0 F1); intros; apply node_block_ascii_tri; assumption|].
  intros bl (L2 & F2). change sz_NodeBlock with 72 in B1. apply tri_ret. split; prj; try assumption; try lia. auto.
Qed.

Lemma elements_binary_tri : forall (U : ub -> Prop) c e, tri (v41_load_elements_binary c e) elements_inv U.
Proof.
  intros U c n. unfold v41_load_elements_binary. rd. rd. rd. rd. rd. rd.
  eapply tri_bind; [apply (tri_resize U _ c sz_ElementBlock eb_default _ (e_blocks n) (fun _ => True)); [apply H|exact I|apply Forall_forall; auto]|].
  intros bl0 (L1 & F1 & B1 & _).
  eapply tri_bind; [apply (tri_mapM U _ _ _ (fun _ => True) element_block_loaded bl0 F1); intros; apply element_block_binary_tri|].
  intros bl (L2 & F2). change sz_ElementBlock with 48 in B1. apply tri_ret. split; prj; try assumption; try lia. auto.
Qed.

Lemma elements_ascii_tri : forall (U : ub -> Prop) c e, U OutOfBounds -> elements_inv e ->
  tri (v41_load_elements_ascii c e) elements_inv U.
Proof.
  intros U c n HO [I1 I2 (I3 & I4 & I5) I6]. unfold v41_load_elements_ascii.
  assert (S0 : size_ok (e_num_blocks n)).
  { rewrite I1. rewrite PD48 in I2. pose proof (zlen_nonneg _ (e_blocks n)). unfold size_ok, two64. lia. }
  rd. rd. rd. rd. rd.
  eapply tri_bind; [apply (tri_resize U _ c sz_ElementBlock eb_default _ (e_blocks n) element_block_vals);
    [apply H|apply element_default_vals|eapply Forall_impl; [|exact I6]; exact loaded_element_vals]|].
  intros bl0 (L1 & F1 & B1 & _).
  eapply tri_bind; [apply (tri_mapM U _ _ _ element_block_vals element_block_loaded bl0 F1); intros; apply element_block_ascii_tri; assumption|].
  intros bl (L2 & F2). change sz_ElementBlock with 48 in B1. apply tri_ret. split; prj; try assumption; try lia. auto.
Qed.

Lemma prior_nodes_inv : forall n, nodes_inv n -> nodes_inv (prior_nodes n).
Proof.
  intros n H. unfold prior_nodes. destruct (n_blocks n) eqn:E; [|exact H]. destruct H as [I1 I2 (I3 & I4 & I5) I6].
  split; cbn [n_num_blocks n_blocks n_num_nodes n_min n_max].
  - rewrite I1, E. reflexivity.
  - rewrite PD72, zlen_nil. lia.
  - unfold size_ok, SIZE_MAX, two64. lia.
  - constructor.
Qed.

Lemma prior_elements_inv : forall e, elements_inv e -> elements_inv (prior_elements e).
Proof.
  intros n H. unfold prior_elements. destruct (e_blocks n) eqn:E; [|exact H]. destruct H as [I1 I2 (I3 & I4 & I5) I6].
  split; cbn [e_num_blocks e_blocks e_num_elements e_min e_max].
  - rewrite I1, E. reflexivity.
  - rewrite PD48, zlen_nil. lia.
  - split; [exact I3|]. unfold size_ok, SIZE_MAX, two64. lia.
  - constructor.
Qed.

Lemma loaded_22_node : forall b, node_block_22 b -> zlen (nb_data b) <= PTRDIFF_MAX / sz_double -> node_block_loaded b.
Proof.
  intros b [A1 A2 A3 A4 A5 A6 A7] B. change sz_double with 8 in B. rewrite PD8 in B.
  pose proof (zlen_nonneg _ (nb_tags b)).
  split; try assumption; try lia.
  - rewrite A1. unfold int_ok, INT_MIN, INT_MAX. lia.
  - unfold size_ok, two64. lia.
  - rewrite A1. cbn [Z.eqb]. rewrite Z.mod_small; lia.
Qed.

Lemma gmsh_dim_int : forall t d, gmsh_dim t = Some d -> int_ok d.
Proof.
  intros t d H. apply gmsh_dim_range in H. unfold int_ok, INT_MIN, INT_MAX. lia.
Qed.

Lemma loaded_22_element : forall b, element_block_22 b -> eb_num b = 1 -> element_block_loaded b.
Proof.
  intros b [A1 A2 A3 (n & A4 & A5) A6] B. split; try assumption.
  - exact (gmsh_dim_int _ _ A1).
  - exists n. split; [exact A4|]. destruct (gmsh_nodes_spec _ _ A4) as (_ & R & _). rewrite A5, B, Z.mod_small; lia.
Qed.

Lemma nodes_inv_22 : forall n n' rows, nodes_inv n -> nodes_appended n n' rows -> nodes_inv n'.
Proof.
  intros n n' rows [I1 I2 (I3 & I4 & I5) I6] [(b & A1 & A2 & A3 & A4 & A5 & A6) B1 B2 B3 B4 B5].
  change sz_NodeBlock with 72 in B5.
  assert (RT : Forall size_ok (map n_tag rows)).
  { apply Forall_forall. intros t Ht. apply in_map_iff in Ht. destruct Ht as (r & <- & Hr). rewrite <- A5 in Hr.
    pose proof (block_rows_ok b A2) as F. rewrite Forall_forall in F. apply (F r Hr). }
  rewrite Forall_forall in RT. split.
  - rewrite B1, I1, A1, zlen_app. change (zlen [b]) with 1. apply to_size_id.
    rewrite A1, zlen_app in B5. change (zlen [b]) with 1 in B5. rewrite PD72 in B5.
    pose proof (zlen_nonneg _ (n_blocks n)). unfold two64. lia.
  - exact B5.
  - split; [rewrite B2; apply to_size_range|]. split.
    + destruct B3 as ([->|HI] & _); [exact I4|exact (RT _ HI)].
    + destruct B4 as ([->|HI] & _); [exact I5|exact (RT _ HI)].
  - rewrite A1. apply Forall_app. split; [exact I6|]. constructor; [|constructor]. apply loaded_22_node; assumption.
Qed.

Lemma fold_min_size : forall l i, size_ok i -> Forall size_ok l -> size_ok (fold_left Z.min l i).
Proof.
  intros l i Hi Hl. destruct (fold_min_least l i) as ([->|HI] & _); [exact Hi|].
  rewrite Forall_forall in Hl. exact (Hl _ HI).
Qed.
Lemma fold_max_size : forall l i, size_ok i -> Forall size_ok l -> size_ok (fold_left Z.max l i).
Proof.
  intros l i Hi Hl. destruct (fold_max_greatest l i) as ([->|HI] & _); [exact Hi|].
  rewrite Forall_forall in Hl. exact (Hl _ HI).
Qed.
Lemma map_to_size_ok : forall l, Forall size_ok (map to_size l).
Proof. intro l. apply Forall_forall. intros x Hx. apply in_map_iff in Hx. destruct Hx as (y & <- & _). apply to_size_range. Qed.

Lemma elements_inv_22 : forall c e en ascii p, elements_inv e -> elements_post c e en ascii p -> elements_inv (fst p).
Proof.
  intros c e en ascii p [I1 I2 (I3 & I4 & I5) I6] (recs & [A1 (bs & A2 & A3 & A4 & A5 & A6) A7] & HN & _).
  assert (F : zlen (e_blocks (fst p)) <= PTRDIFF_MAX / 48).
  { destruct A7 as [->|[A7 _]]; [|exact A7].
    destruct bs; [|rewrite zlen_nil, zlen_cons in A3; pose proof (zlen_nonneg _ bs); lia].
    rewrite A2, app_nil_r. exact I2. }
  assert (SB : zlen (e_blocks (fst p)) < two64) by (rewrite PD48 in F; unfold two64; lia).
  pose proof (zlen_nonneg _ (e_blocks (fst p))) as NB. pose proof (zlen_nonneg _ (e_blocks e)) as NE.
  pose proof (zlen_nonneg _ recs) as NR.
  assert (ES : zlen (e_blocks (fst p)) = zlen (e_blocks e) + zlen recs) by (rewrite A2, zlen_app, A3; reflexivity).
  split.
  - unfold nums_22 in HN. destruct ascii; [|apply HN].
    destruct HN as [HN _]. rewrite HN, I1, ES. apply to_size_id. lia.
  - exact F.
  - unfold nums_22 in HN. destruct ascii.
    + destruct HN as (_ & -> & -> & ->). split; [apply to_size_range|].
      split; [apply fold_min_size|apply fold_max_size]; auto using map_to_size_ok.
    + destruct HN as (_ & -> & -> & ->). split; [unfold size_ok; lia|].
      pose proof (to_size_range (fold_left Z.min (map er_id recs) INT_MAX)) as R1.
      pose proof (to_size_range (fold_left Z.max (map er_id recs) 0)) as R2. unfold size_ok in *. lia.
  - rewrite A2. apply Forall_app. split; [exact I6|]. apply Forall_forall. intros b Hb.
    rewrite Forall_forall in A4, A5. apply loaded_22_element; auto.
Qed.

Definition bad_fill (u : ub) : Prop := u = SignedOverflow \/ u = OutOfBounds \/ u = Indeterminate.

Lemma load_nodes_inv : forall c spec, nodes_inv (nodes spec) ->
  tri (load_nodes c spec) (fun sp => exists n', sp = set_nodes n' spec /\ nodes_inv n') bad_fill.
Proof.
  intros c spec HI. unfold load_nodes. fold (prior_nodes (nodes spec)). pose proof (prior_nodes_inv _ HI) as HP.
  apply (tri_bind _ _ _ _ _ nodes_inv); [|intros n' H; apply tri_ret; eauto].
  destruct (bytes_eqb _ v41s).
  - destruct (_ =? 0); [apply nodes_ascii_tri|apply nodes_binary_tri]; unfold bad_fill; auto.
  - destruct (bytes_eqb _ v22s); [|apply tri_throw].
    destruct (_ =? 0); eapply tri_weaken.
    + apply v22_load_nodes_ascii_tri.
    + intros n' (rows & H). exact (nodes_inv_22 _ _ _ HP H).
    + apply v22_load_nodes_binary_tri. unfold bad_fill; auto.
    + intros n' (rows & H). exact (nodes_inv_22 _ _ _ HP H).
Qed.

Lemma load_elements_inv : forall c spec, elements_inv (elements spec) ->
  tri (load_elements c spec) (fun sp => exists e' en, elements_inv e' /\
    (sp = set_elements e' spec \/ sp = set_entities en (set_elements e' spec))) bad_fill.
Proof.
  intros c spec HI. unfold load_elements. fold (prior_elements (elements spec)). pose proof (prior_elements_inv _ HI) as HP.
  destruct (bytes_eqb _ v41s).
  - apply (tri_bind _ _ _ _ _ elements_inv); [|intros e' H; apply tri_ret; exists e', (entities spec); auto].
    destruct (_ =? 0); [apply elements_ascii_tri|apply elements_binary_tri]; unfold bad_fill; auto.
  - destruct (bytes_eqb _ v22s); [|apply tri_throw].
    apply (tri_bind _ _ _ _ _ (fun p => elements_inv (fst p))); [|intros p H; apply tri_ret; exists (fst p), (snd p); auto].
    destruct (_ =? 0); eapply tri_weaken.
    + apply v22_load_elements_ascii_tri. unfold bad_fill; auto.
    + intros p H. exact (elements_inv_22 _ _ _ _ _ HP H).
    + apply v22_load_elements_binary_tri; [unfold bad_fill; auto|unfold bad_fill; auto|apply HP].
    + intros p H. exact (elements_inv_22 _ _ _ _ _ HP H).
Qed.

(** ** Data *)

Definition entry_fits (fields : Z) (end_ : bool) (e : DataEntry) : Prop :=
  zlen (de_data e) = (if end_ then to_size (fields * to_size (de_npe e)) else fields).

Lemma entry_binary_tri : forall (U : ub -> Prop) c is22 fields end_ e, U Indeterminate -> size_ok fields ->
  tri (entry_binary c is22 fields end_ e) (entry_fits fields end_) U.
Proof.
  intros U c is22 fields end_ e HU HF. unfold entry_binary. rd. rd.
  apply (tri_bind _ _ _ _ _ (fun _ => True)).
  { destruct end_; [|apply tri_ret; exact I]. destruct is22; [|apply tri_any].
    rd. eapply tri_weaken; [apply tri_use; [exact H1|exact HU]|auto]. }
  intros npe _.
  eapply tri_bind; [apply (tri_resize U _ c sz_double 0 _ (de_data e) (fun _ => True)); [destruct end_; [apply to_size_range|apply HF]|exact I|apply Forall_forall; auto]|].
  intros data0 (L3 & F3 & _ & _).
  eapply tri_bind; [apply (tri_raw_array U _ (fun _ => True) size_ok data0 F3); intros; apply tri_raw_double|].
  intros data (L4 & F4). apply tri_ret. unfold entry_fits. cbn [de_data de_npe]. etransitivity; [exact L4|exact L3].
Qed.

Lemma entry_ascii_tri : forall (U : ub -> Prop) c fields end_ e, U OutOfBounds -> size_ok fields ->
  tri (entry_ascii c fields end_ e) (entry_fits fields end_) U.
Proof.
  intros U c fields end_ e HO HF. unfold entry_ascii, entry_fits. apply (tri_bind _ _ _ _ _ (fun _ => True)); [apply tri_any|].
  intros t _. destruct end_.
  - apply (tri_bind _ _ _ _ _ (fun _ => True)); [apply tri_any|]. intros npe _.
    eapply tri_bind; [apply (tri_resize U _ c sz_double 0 _ (de_data e) (fun _ => True)); [apply to_size_range|exact I|apply Forall_forall; auto]|].
    intros data0 (L3 & F3 & _ & _).
    apply (tri_bind _ _ _ _ _ (fun l => zlen l = zlen data0 /\ Forall (fun _ => True) l)).
    { unfold fill. destruct (_ =? _); [|apply tri_undef; exact HO].
      apply (tri_mapM U _ _ _ (fun _ => True) (fun _ => True) data0 F3). intros; apply tri_any. }
    intros data (L4 & F4). apply tri_ret. cbn [de_data de_npe]. etransitivity; [exact L4|exact L3].
  - eapply tri_bind; [apply (tri_resize U _ c sz_double 0 _ (de_data e) (fun _ => True)); [apply HF|exact I|apply Forall_forall; auto]|].
    intros data0 (L3 & F3 & _ & _).
    eapply tri_bind; [apply (tri_mapM U _ _ _ (fun _ => True) (fun _ => True) data0 F3); intros; apply tri_any|].
    intros data (L4 & F4). apply tri_ret. cbn [de_data de_npe]. etransitivity; [exact L4|exact L3].
Qed.

Lemma header_tri : forall (U : ub -> Prop) c, U Indeterminate -> tri (load_data_header c) (fun _ => True) U.
Proof.
  intros U c HU. unfold load_data_header. rd. rd.
  eapply tri_bind; [apply (tri_resize U _ c sz_string [] _ [] (fun _ => True)); [apply H0|exact I|constructor]|].
  intros l1 (_ & F1 & _ & _).
  eapply tri_bind; [apply (tri_mapM U _ _ _ (fun _ => True) (fun _ => True) l1 F1); intros; apply tri_any|]. intros l1' _.
  rd. rd.
  eapply tri_bind; [apply (tri_resize U _ c sz_double 0 _ [] (fun _ => True)); [apply H2|exact I|constructor]|].
  intros l2 (_ & F2 & _ & _).
  eapply tri_bind; [apply (tri_mapM U _ _ _ (fun _ => True) (fun _ => True) l2 F2); intros; apply tri_any|]. intros l2' _.
  rd. rd.
  eapply tri_bind; [apply (tri_resize U _ c sz_int 0 _ [] (fun _ => True)); [apply H4|exact I|constructor]|].
  intros l3 (_ & F3 & _ & _).
  eapply tri_bind; [apply (tri_mapM U _ _ _ (fun _ => True) (fun _ => True) l3 F3); intros; apply tri_any|]. intros l3' _.
  rd. apply tri_ret. exact I.
Qed.

Lemma load_data_inv : forall (U : ub -> Prop) c v bin end_, U Indeterminate -> U OutOfBounds ->
  tri (load_data c v bin end_) (data_loaded end_) U.
Proof.
  intros U c v bin end_ HU HO. unfold load_data. eapply tri_bind; [apply header_tri; exact HU|]. intros h _.
  destruct (int_tags h) as [|i0 [|i1 [|i2 more]]] eqn:EI; try apply tri_throw. cbv zeta.
  eapply tri_bind; [apply (tri_resize U _ c sz_DataEntry de_default _ [] (fun _ => True)); [apply to_size_range|exact I|constructor]|].
  intros e0 (L0 & F0 & _ & _).
  apply (tri_bind _ _ _ _ _ (fun l => zlen l = zlen e0 /\ Forall (entry_fits (to_size i1) end_) l)).
  { destruct bin.
    - rd. destruct (bytes_eqb v v41s); [|destruct (bytes_eqb v v22s); [|apply tri_throw]];
        apply (tri_mapM U _ _ _ (fun _ => True) _ e0 F0); intros; (apply entry_binary_tri; [exact HU|apply to_size_range]).
    - apply (tri_mapM U _ _ _ (fun _ => True) _ e0 F0); intros; apply entry_ascii_tri; [exact HO|apply to_size_range]. }
  intros es (L1 & F1). rd. apply tri_ret. exists i0, i1, i2, more. cbn [d_header d_entries]. split; [exact EI|].
  split; [rewrite L1, L0; reflexivity|]. eapply Forall_impl; [|exact F1]. intros e. unfold entry_fits. intros ->.
  destruct end_; [|reflexivity]. rewrite size_mod. unfold to_size. change (2 ^ 64) with two64. apply Zmult_mod_idemp_l.
Qed.

(** ** The loop *)

Record spec_inv (s : MshSpec) : Prop := {
  si_nodes : nodes_inv (nodes s);
  si_elements : elements_inv (elements s);
  si_nd : Forall (data_loaded false) (node_data s);
  si_ed : Forall (data_loaded false) (element_data s);
  si_end : Forall (data_loaded true) (element_node_data s) }.

Lemma spec_inv_default : spec_inv spec_default.
Proof.
  split; cbn; try constructor; cbn; try constructor; unfold size_ok, two64; try (rewrite ?PD48, ?PD72, ?zlen_nil; lia).
Qed.

Lemma spec_inv_same : forall s s', spec_inv s -> nodes s' = nodes s -> elements s' = elements s ->
  node_data s' = node_data s -> element_data s' = element_data s -> element_node_data s' = element_node_data s -> spec_inv s'.
Proof. intros s s' [A B C D E] E1 E2 E3 E4 E5. split; rewrite ?E1, ?E2, ?E3, ?E4, ?E5; assumption. Qed.

Definition frame (s s' : MshSpec) : Prop :=
  nodes s' = nodes s /\ elements s' = elements s /\ node_data s' = node_data s /\
  element_data s' = element_data s /\ element_node_data s' = element_node_data s.

Lemma dispatch_inv : forall c name spec, spec_inv spec -> post (dispatch c name spec) spec_inv.
Proof.
  intros c name spec HI.
  assert (T : frame spec spec) by (repeat split).
  assert (W : forall m, post m (frame spec) -> post m spec_inv).
  { intros m H. eapply post_weaken; [exact H|]. intros s' (E1 & E2 & E3 & E4 & E5). eapply spec_inv_same; eassumption. }
  unfold dispatch.
  destruct (bytes_eqb name (str "$MeshFormat")); [apply W; unfold load_mesh_format; post_frame ltac:(exact T)|].
  destruct (bytes_eqb name (str "$Entities")); [apply W; unfold load_entities; post_frame ltac:(exact T)|].
  destruct (bytes_eqb name (str "$PhysicalNames")); [apply W; unfold load_physical_groups; post_frame ltac:(exact T)|].
  destruct (bytes_eqb name (str "$Nodes")).
  { intros s a s' E. destruct (tri_post _ _ _ (tri_mono _ _ _ _ (load_nodes_inv c spec (si_nodes _ HI))) _ _ _ E) as (n' & -> & H).
    destruct HI. split; assumption. }
  destruct (bytes_eqb name (str "$Elements")).
  { intros s a s' E. destruct (tri_post _ _ _ (tri_mono _ _ _ _ (load_elements_inv c spec (si_elements _ HI))) _ _ _ E) as (n' & en & H & [->| ->]);
    destruct HI; split; assumption. }
  destruct (bytes_eqb name (str "$NodeData")).
  { unfold load_node_data. eapply post_bind; [exact (tri_post _ _ _ (load_data_inv any_ub c _ _ _ I I))|].
    intros d Hd. apply post_ret. destruct HI. split; try assumption. cbn [node_data set_node_data].
    apply Forall_app. split; [assumption|]. constructor; [exact Hd|constructor]. }
  destruct (bytes_eqb name (str "$ElementData")).
  { unfold load_element_data. eapply post_bind; [exact (tri_post _ _ _ (load_data_inv any_ub c _ _ _ I I))|].
    intros d Hd. apply post_ret. destruct HI. split; try assumption. cbn [element_data set_element_data].
    apply Forall_app. split; [assumption|]. constructor; [exact Hd|constructor]. }
  destruct (bytes_eqb name (str "$ElementNodeData")).
  { unfold load_element_node_data. eapply post_bind; [exact (tri_post _ _ _ (load_data_inv any_ub c _ _ _ I I))|].
    intros d Hd. apply post_ret. destruct HI. split; try assumption. cbn [element_node_data set_element_node_data].
    apply Forall_app. split; [assumption|]. constructor; [exact Hd|constructor]. }
  apply W. unfold load_nanospline_format, load_curves, load_patches. post_frame ltac:(exact T).
Qed.

Lemma spec_inv_loaded : forall s, spec_inv s -> loaded s.
Proof. intros s [[A1 A2 A3 A4] [B1 B2 B3 B4] C D E]. split; assumption. Qed.

Lemma spec_inv_ends : forall c b raw, ends_with c b raw -> spec_inv raw.
Proof.
  intros c b raw (s & R & _). refine (reached_inv c b spec_inv spec_inv_default _ _ R).
  intros name spec s0 spec' s' _ _ HI ED. exact (dispatch_inv c name spec HI _ _ _ ED).
Qed.

(** Data sections never change afterwards. *)
Lemma post_data : forall c raw s, post_process c raw = Ok s -> node_data s = node_data raw /\
  element_data s = element_data raw /\ element_node_data s = element_node_data raw /\ mesh_format s = mesh_format raw.
Proof.
  intros c raw s HP. unfold post_process in HP. destruct (bytes_eqb _ _).
  - destruct (regroup_nodes c raw) as [m| | | |] eqn:EN; try discriminate. cbn [obind] in HP.
    unfold regroup_nodes, regroup_elements in EN, HP. cbv zeta in EN, HP.
    repeat match type of HP with obind ?x _ = _ => destruct x; cbn [obind] in HP; try discriminate end.
    repeat match type of EN with obind ?x _ = _ => destruct x; cbn [obind] in EN; try discriminate end.
    injection HP as <-. injection EN as <-. auto.
  - injection HP as <-. auto.
Qed.

(** Files whose last version is not 2.2 are not regrouped. *)
Theorem loaded_not22 : forall c b s, load_msh c b = Ok s -> version (mesh_format s) <> str "2.2" -> loaded s.
Proof.
  intros c b s HL Hv. destruct (load_ends c b s HL) as (raw & HE & HP).
  pose proof (spec_inv_ends c b raw HE) as HI. apply spec_inv_loaded.
  pose proof HP as HP0. unfold post_process in HP. destruct (bytes_eqb (version (mesh_format raw)) v22s) eqn:E.
  - exfalso. apply bytes_eqb_eq in E.
    apply Hv. destruct (post_data c raw s HP0) as (_ & _ & _ & ->). exact E.
  - injection HP as <-. exact HI.
Qed.

Theorem loaded_data : forall c b s, load_msh c b = Ok s ->
  Forall (data_loaded false) (node_data s) /\ Forall (data_loaded false) (element_data s) /\
  Forall (data_loaded true) (element_node_data s).
Proof.
  intros c b s HL. destruct (load_ends c b s HL) as (raw & HE & HP).
  destruct (spec_inv_ends c b raw HE) as [_ _ C D E]. destruct (post_data c raw s HP) as (-> & -> & -> & _). auto.
Qed.
