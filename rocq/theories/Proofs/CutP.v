(** Reading a file that ends too early. *)

From Verif Require Import Model.Save Spec.Cut Spec.Steps Proofs.BytesP Proofs.RtBase Proofs.ShowP
  Proofs.WriteP Proofs.RtStep Proofs.HeaderP Proofs.Reach Proofs.Compose Proofs.Rt41A Proofs.Rt41B Proofs.Rt41.

Ltac Zify.zify_post_hook ::= idtac.

(** The stream after a short read. *)
Definition dead : istream := {| rest := []; eofb := true; failb := true |}.

(** [t] is read whatever follows, even nothing. *)
Definition ZB {A} (r : M A) (t : bytes) (v : A) : Prop :=
  forall rest, r (opened (t ++ rest)) = Ok (v, opened rest).

(** The result when only the first [k] bytes of [t] are there. *)
Definition CT {A} (r : M A) (t : bytes) (Q : A -> Prop) : Prop :=
  forall k, (k < List.length t)%nat -> exists v, r (opened (firstn k t)) = Ok (v, dead) /\ Q v.
Definition CA {A} (r : M A) (t : bytes) : Prop :=
  forall k, (k < List.length t)%nat -> r (opened (firstn k t)) = Abort.

Lemma ZB_bind : forall A B (m : M A) (f : A -> M B) t1 t2 a b,
  ZB m t1 a -> ZB (f a) t2 b -> ZB (bind m f) (t1 ++ t2) b.
Proof.
  intros A B m f t1 t2 a b H1 H2 r. unfold bind. rewrite <- app_assoc, H1. apply H2.
Qed.

Lemma ZB_bind0 : forall A B (m : M A) (f : A -> M B) t a b,
  (forall s, eofb s = false -> failb s = false -> m s = Ok (a, s)) -> ZB (f a) t b -> ZB (bind m f) t b.
Proof.
  intros A B m f t a b H1 H2 r. unfold bind. rewrite H1 by reflexivity. apply H2.
Qed.

Lemma ZB_ret : forall A (v : A), ZB (ret v) [] v.
Proof. intros A v r. reflexivity. Qed.

Lemma ZB_last : forall A B (m : M A) (h : A -> M B) t a b, ZB m t a -> ZB (h a) [] b -> ZB (bind m h) t b.
Proof. intros. rewrite <- (app_nil_r t). eapply ZB_bind; eassumption. Qed.

Lemma ZB_size : forall old z, size_ok z -> ZB (op (rd_raw_size old)) (le 8 z) z.
Proof.
  intros old z H r. unfold op, rd_raw_size.
  rewrite rd_raw_app by (rewrite !le_length; reflexivity). rewrite unle_le8 by exact H. reflexivity.
Qed.

Lemma ZB_int : forall old z, int_ok z -> ZB (op (rd_raw_int old)) (le 4 z) z.
Proof.
  intros old z H r. unfold op, rd_raw_int.
  rewrite rd_raw_app by (rewrite !le_length; reflexivity). rewrite to_int_le4 by exact H. reflexivity.
Qed.

Lemma mapM_ZB : forall A B C (f : A -> M B) (g : C -> bytes) (h : C -> B) (vs : list C) (xs : list A),
  List.length xs = List.length vs -> (forall x v, In x xs -> In v vs -> ZB (f x) (g v) (h v)) ->
  ZB (mapM f xs) (List.concat (map g vs)) (map h vs).
Proof.
  intros A B C f g h. induction vs as [|v vs IH]; intros [|x xs] HL H; try discriminate; [apply ZB_ret|].
  cbn [map List.concat mapM]. eapply ZB_bind; [apply H; left; reflexivity|].
  eapply ZB_last; [apply IH; [injection HL; auto|]|apply ZB_ret].
  intros; apply H; right; assumption.
Qed.

Lemma ZB_array : forall olds vs, List.length olds = List.length vs -> Forall size_ok vs ->
  ZB (rd_raw_array rd_raw_size olds) (words8 vs) vs.
Proof.
  intros olds vs HL HF. unfold rd_raw_array. eapply ZB_bind0 with (a := tt).
  - intros s H1 H2. unfold op, sentry_noskip, good. rewrite H1, H2. reflexivity.
  - rewrite <- (map_id vs) at 2. apply mapM_ZB; [exact HL|]. intros x v _ Hv. rewrite Forall_forall in HF.
    apply ZB_size. auto.
Qed.

(** ** Cut readings *)

Lemma firstn_app_lt : forall A (l1 l2 : list A) k, (k <= List.length l1)%nat -> firstn k (l1 ++ l2) = firstn k l1.
Proof.
  intros A l1 l2 k H. rewrite firstn_app. replace (k - List.length l1)%nat with O by lia.
  apply app_nil_r.
Qed.

Lemma firstn_app_ge : forall A (l1 l2 : list A) k, (List.length l1 <= k)%nat ->
  firstn k (l1 ++ l2) = l1 ++ firstn (k - List.length l1) l2.
Proof. intros A l1 l2 k H. rewrite firstn_app, firstn_all2 by lia. reflexivity. Qed.

Lemma CT_bind : forall A B (m : M A) (f : A -> M B) t1 t2 a Q1 Q, CT m t1 Q1 ->
  (forall x, Q1 x -> exists v, f x dead = Ok (v, dead) /\ Q v) ->
  ZB m t1 a -> CT (f a) t2 Q -> CT (bind m f) (t1 ++ t2) Q.
Proof.
  intros A B m f t1 t2 a Q1 Q H1 HD HZ H2 k Hk. rewrite app_length in Hk.
  destruct (Nat.lt_ge_cases k (List.length t1)) as [L|L].
  - rewrite firstn_app_lt by lia. destruct (H1 k L) as (x & E & q). destruct (HD x q) as (v & E2 & q2).
    exists v. unfold bind. rewrite E. auto.
  - rewrite firstn_app_ge by exact L. destruct (H2 (k - List.length t1)%nat ltac:(lia)) as (v & E & q).
    exists v. unfold bind. rewrite HZ. auto.
Qed.

Lemma CT_bind0 : forall A B (m : M A) (f : A -> M B) t a Q,
  (forall s, eofb s = false -> failb s = false -> m s = Ok (a, s)) -> CT (f a) t Q -> CT (bind m f) t Q.
Proof.
  intros A B m f t a Q H1 H2 k Hk. destruct (H2 k Hk) as (v & E & q). exists v. unfold bind.
  rewrite H1 by reflexivity. auto.
Qed.

Lemma CT_nil : forall A (m : M A) Q, CT m [] Q.
Proof. intros A m Q k Hk. cbn in Hk. lia. Qed.

Lemma CT_last : forall A B (m : M A) (f : A -> M B) t Q1 Q, CT m t Q1 ->
  (forall x, Q1 x -> exists v, f x dead = Ok (v, dead) /\ Q v) -> CT (bind m f) t Q.
Proof.
  intros A B m f t Q1 Q H1 HD k Hk. destruct (H1 k Hk) as (x & E & q). destruct (HD x q) as (v & E2 & q2).
  exists v. unfold bind. rewrite E. auto.
Qed.

Lemma CA_bind : forall A B (m : M A) (f : A -> M B) t1 t2 a, 
  (forall k, (k < List.length t1)%nat -> m (opened (firstn k t1)) = Abort \/
     exists x, m (opened (firstn k t1)) = Ok (x, dead) /\ f x dead = Abort) ->
  ZB m t1 a -> CA (f a) t2 -> CA (bind m f) (t1 ++ t2).
Proof.
  intros A B m f t1 t2 a H1 HZ H2 k Hk. rewrite app_length in Hk.
  destruct (Nat.lt_ge_cases k (List.length t1)) as [L|L].
  - rewrite firstn_app_lt by lia. unfold bind. destruct (H1 k L) as [E|(x & E & E2)]; rewrite E; auto.
  - rewrite firstn_app_ge by exact L. unfold bind. rewrite HZ. apply H2. lia.
Qed.

Lemma CA_bind0 : forall A B (m : M A) (f : A -> M B) t a,
  (forall s, eofb s = false -> failb s = false -> m s = Ok (a, s)) -> CA (f a) t -> CA (bind m f) t.
Proof. intros A B m f t a H1 H2 k Hk. unfold bind. rewrite H1 by reflexivity. apply H2. exact Hk. Qed.

Lemma CA_nil : forall A (m : M A), CA m [].
Proof. intros A m k Hk. cbn in Hk. lia. Qed.

Lemma CA_CT_bind : forall A B (m : M A) (f : A -> M B) t1 t2 a Q, CT m t1 Q ->
  (forall x, f x dead = Abort) -> ZB m t1 a -> CA (f a) t2 -> CA (bind m f) (t1 ++ t2).
Proof.
  intros A B m f t1 t2 a Q H1 HD HZ H2. eapply CA_bind; [|exact HZ|exact H2].
  intros k L. right. destruct (H1 k L) as (x & E & _). eauto.
Qed.

(** ** Cut values *)

Lemma zeros_le : forall n, le n 0 = repeat x00 n.
Proof.
  induction n as [|n IH]; [reflexivity|]. cbn [le repeat]. change (0 / 256) with 0. rewrite IH. reflexivity.
Qed.

Lemma skipn_zeros : forall j n, skipn j (repeat x00 n) = repeat x00 (n - j).
Proof.
  induction j as [|j IH]; intros [|n]; try reflexivity. cbn [repeat skipn]. rewrite IH. reflexivity.
Qed.

Lemma unle_cut : forall n j z, (j <= n)%nat -> unle (firstn j (le n z)) = z mod 256 ^ Z.of_nat j.
Proof.
  intros n j z H. rewrite <- (unle_le j z). f_equal. revert n z H.
  induction j as [|j IH]; intros [|n] z H; try reflexivity; try lia.
  cbn [le firstn]. f_equal. apply IH. lia.
Qed.

Lemma pow256 : forall j, 256 ^ Z.of_nat j = 2 ^ (8 * Z.of_nat j).
Proof. intro j. rewrite Z.pow_mul_r by lia. reflexivity. Qed.

Lemma rd_raw_cut : forall n b, (List.length b < n)%nat -> rd_raw (le n 0) (opened b) =
  (b ++ repeat x00 (n - List.length b), List.length b, dead).
Proof.
  intros n b H. unfold rd_raw, sentry_noskip. cbn [good opened eofb failb negb andb IStream.rest].
  rewrite le_length, firstn_all2 by lia. replace (List.length b <? n)%nat with true by (symmetry; apply Nat.ltb_lt; lia).
  rewrite zeros_le, skipn_zeros. reflexivity.
Qed.

Lemma size_cut : forall j z, (j < 8)%nat ->
  op (rd_raw_size 0) (opened (firstn j (le 8 z))) = Ok (z mod 2 ^ (8 * Z.of_nat j), dead).
Proof.
  intros j z H. unfold op, rd_raw_size.
  assert (L : List.length (firstn j (le 8 z)) = j) by (rewrite firstn_length, le_length; lia).
  rewrite rd_raw_cut by lia. rewrite L, unle_zeros, unle_cut by lia. rewrite pow256. reflexivity.
Qed.

Lemma int_cut : forall j z, (j < 4)%nat ->
  op (rd_raw_int 0) (opened (firstn j (le 4 z))) = Ok (to_int (z mod 2 ^ (8 * Z.of_nat j)), dead).
Proof.
  intros j z H. unfold op, rd_raw_int.
  assert (L : List.length (firstn j (le 4 z)) = j) by (rewrite firstn_length, le_length; lia).
  rewrite rd_raw_cut by lia. rewrite L, unle_zeros, unle_cut by lia. rewrite pow256. reflexivity.
Qed.

Lemma cut_le : forall j z, 0 <= z -> 0 <= z mod 2 ^ (8 * Z.of_nat j) <= z.
Proof.
  intros j z H. assert (0 < 2 ^ (8 * Z.of_nat j)) by (apply Z.pow_pos_nonneg; lia). split.
  - apply Z.mod_pos_bound. assumption.
  - apply Z.mod_le; assumption.
Qed.

Lemma CT_size : forall z, 0 <= z -> CT (op (rd_raw_size 0)) (le 8 z) (fun x => 0 <= x <= z).
Proof.
  intros z H k Hk. rewrite le_length in Hk. rewrite size_cut by exact Hk. eexists. split; [reflexivity|].
  apply cut_le. exact H.
Qed.

Lemma CT_size_any : forall old z, CT (op (rd_raw_size old)) (le 8 z) (fun _ => True).
Proof.
  intros old z k Hk. rewrite le_length in Hk. unfold op, rd_raw_size, rd_raw, sentry_noskip.
  cbn [good opened eofb failb negb andb IStream.rest]. rewrite le_length, firstn_firstn, Nat.min_r by lia.
  rewrite firstn_length, le_length, Nat.min_l by lia. replace (k <? 8)%nat with true by (symmetry; apply Nat.ltb_lt; lia).
  eexists. split; [reflexivity|exact I].
Qed.

Lemma CT_int_any : forall z, CT (op (rd_raw_int 0)) (le 4 z) (fun _ => True).
Proof.
  intros z k Hk. rewrite le_length in Hk. rewrite int_cut by exact Hk. eauto.
Qed.

Lemma CT_int_small : forall z, 0 <= z < 256 -> CT (op (rd_raw_int 0)) (le 4 z) (fun x => x = z \/ x = 0).
Proof.
  intros z H k Hk. rewrite le_length in Hk. rewrite int_cut by exact Hk. eexists. split; [reflexivity|].
  destruct k as [|k].
  - right. change (2 ^ (8 * Z.of_nat 0)) with 1. rewrite Z.mod_1_r. reflexivity.
  - left. rewrite Z.mod_small.
    + apply to_int_id. unfold int_ok, INT_MIN, INT_MAX. lia.
    + split; [lia|]. eapply Z.lt_le_trans; [apply H|]. change 256 with (2 ^ 8). apply Z.pow_le_mono_r; lia.
Qed.

Lemma raw_dead_size : op (rd_raw_size 0) dead = Ok (0, dead).
Proof. reflexivity. Qed.

Lemma mapM_dead : forall A B (f : A -> M B) x y n, f x dead = Ok (y, dead) ->
  mapM f (repeat x n) dead = Ok (repeat y n, dead).
Proof.
  intros A B f x y n H. induction n as [|n IH]; [reflexivity|]. cbn [repeat mapM]. unfold bind at 1.
  rewrite H. unfold bind. rewrite IH. reflexivity.
Qed.

Lemma array_dead : forall n, rd_raw_array rd_raw_size (repeat 0 n) dead = Ok (repeat 0 n, dead).
Proof.
  intro n. unfold rd_raw_array, bind at 1. change (op _ dead) with (@Ok (unit * istream) (tt, dead)). cbv iota beta.
  apply mapM_dead. reflexivity.
Qed.

Lemma cut_words_0 : forall l, cut_words 0 l = repeat 0 (List.length l).
Proof.
  induction l as [|x l IH]; [reflexivity|]. cbn [cut_words List.length repeat]. change (0 - 8)%nat with O. rewrite IH.
  change (2 ^ (8 * Z.of_nat (Nat.min 0 8))) with 1. rewrite Z.mod_1_r. reflexivity.
Qed.

Lemma mapM_sizes_cut : forall vs k, Forall size_ok vs -> (k < 8 * List.length vs)%nat ->
  mapM (fun o => op (rd_raw_size o)) (repeat 0 (List.length vs)) (opened (firstn k (words8 vs))) =
  Ok (cut_words k vs, dead).
Proof.
  induction vs as [|v vs IH]; intros k F Hk; [cbn in Hk; lia|]. inversion F as [|? ? Hv F']; subst.
  unfold words8. cbn [map List.concat]. change (List.concat (map (le 8) vs)) with (words8 vs).
  cbn [List.length repeat mapM cut_words]. unfold bind at 1.
  destruct (Nat.lt_ge_cases k 8) as [L|L].
  - rewrite firstn_app_lt by (rewrite le_length; lia). rewrite size_cut by exact L.
    unfold bind. rewrite (mapM_dead _ _ _ 0 0) by reflexivity.
    rewrite Nat.min_l by lia. replace (k - 8)%nat with O by lia. rewrite cut_words_0. reflexivity.
  - rewrite firstn_app_ge by (rewrite le_length; lia). rewrite le_length. rewrite ZB_size by exact Hv.
    unfold bind. rewrite IH; [|exact F'|cbn [List.length] in Hk; lia].
    rewrite Nat.min_r by lia. change (2 ^ (8 * Z.of_nat 8)) with two64.
    rewrite Z.mod_small by exact Hv. reflexivity.
Qed.

Lemma words8_length : forall l, List.length (words8 l) = (8 * List.length l)%nat.
Proof.
  induction l as [|x l IH]; [reflexivity|]. unfold words8. cbn [map List.concat]. rewrite app_length, le_length.
  change (List.concat (map (le 8) l)) with (words8 l). rewrite IH. cbn [List.length]. lia.
Qed.

Lemma array_cut : forall vs k, Forall size_ok vs -> (k < 8 * List.length vs)%nat ->
  rd_raw_array rd_raw_size (repeat 0 (List.length vs)) (opened (firstn k (words8 vs))) =
  Ok (cut_words k vs, dead).
Proof. intros vs k F Hk. exact (mapM_sizes_cut vs k F Hk). Qed.

(** ** One block *)

Lemma fits_le : forall c sz n m, 0 <= n <= m -> 0 < sz -> fits c sz m -> fits c sz n.
Proof.
  intros c sz n m H Hs [H1 H2]. split; [lia|]. eapply Z.le_trans; [|exact H2].
  apply Z.mul_le_mono_nonneg_r; lia.
Qed.

Lemma resize_zeros : forall c n, 0 <= n -> fits c 8 n -> resize c 8 0 n [] = Ok (repeat 0 (Z.to_nat n)).
Proof. intros c n H [H1 H2]. apply resize_fresh; [reflexivity|lia|assumption..]. Qed.

Lemma zlen_zeros : forall n, 0 <= n -> zlen (repeat 0 (Z.to_nat n)) = n.
Proof. intros n H. unfold zlen. rewrite repeat_length. lia. Qed.

Lemma fits8_lt : forall c n, 0 <= n -> fits c 8 n -> 0 <= 8 * n < two64.
Proof.
  intros c n H [H1 _]. change (PTRDIFF_MAX / 8) with 1152921504606846975 in H1. unfold two64. lia.
Qed.

(** The byte counts and sizes of a block. *)
Lemma counts : forall c num w, 0 <= num -> 0 <= w -> fits c 8 num -> fits c 8 (num * w) ->
  to_size (sz_size * num) = 8 * zlen (repeat 0 (Z.to_nat num)) /\
  to_size (num * w) = num * w /\
  to_size (to_size (sz_double * num) * w) = 8 * zlen (repeat 0 (Z.to_nat (num * w))).
Proof.
  intros c num w Hn Hw F1 F2. assert (0 <= num * w) by (apply Z.mul_nonneg_nonneg; assumption).
  pose proof (fits8_lt c num Hn F1) as B1. pose proof (fits8_lt c (num * w) ltac:(assumption) F2) as B2.
  rewrite !zlen_zeros by assumption. change sz_size with 8. change sz_double with 8.
  split; [apply to_size_id; exact B1|]. split; [apply to_size_id; unfold size_ok; lia|].
  unfold to_size. rewrite Zmult_mod_idemp_l, <- Z.mul_assoc. apply Z.mod_small. exact B2.
Qed.

(** After the four numbers of a block. *)
Definition block_tail (c : cfg) (dim tag par num : Z) : M NodeBlock :=
  assert_good c ;;
  tags0 <- lift (resize c sz_size 0 num []) ;;
  tags <- rd_raw_into sz_size (to_size (sz_size * num)) rd_raw_size tags0 ;;
  assert_good c ;;
  epn <- lift (entries_per_node par dim) ;;
  data0 <- lift (resize c sz_double 0 (to_size (num * epn)) []) ;;
  data <- rd_raw_into sz_double (to_size (to_size (sz_double * num) * epn)) rd_raw_double data0 ;;
  assert_good c ;;
  ret {| nb_dim := dim; nb_tag := tag; nb_parametric := par; nb_num := num;
         nb_tags := tags; nb_data := data |}.

Lemma release_dead : forall c, ndebug c = true -> assert_good c dead = Ok (tt, dead).
Proof. intros c H. unfold assert_good, massert. rewrite H. reflexivity. Qed.

Lemma debug_dead : forall c, ndebug c = false -> assert_good c dead = Abort.
Proof. intros c H. unfold assert_good, massert. rewrite H. reflexivity. Qed.

Lemma into_dead : forall m n, m = 8 * zlen (repeat 0 n) ->
  rd_raw_into 8 m rd_raw_size (repeat 0 n) dead = Ok (repeat 0 n, dead).
Proof. intros m n ->. rewrite rd_raw_into_full by reflexivity || lia. apply array_dead. Qed.

Lemma tail_dead : forall c dim tag par num w, ndebug c = true ->
  entries_per_node par dim = Ok w -> 0 <= w -> 0 <= num -> fits c 8 num -> fits c 8 (num * w) ->
  exists v, block_tail c dim tag par num dead = Ok (v, dead).
Proof.
  intros c dim tag par num w Hr He Hw Hn F1 F2. destruct (counts c num w Hn Hw F1 F2) as (C1 & C2 & C3).
  assert (0 <= num * w) by (apply Z.mul_nonneg_nonneg; assumption).
  unfold block_tail, bind, lift. rewrite release_dead by exact Hr. change sz_size with 8 in *. change sz_double with 8 in *.
  rewrite resize_zeros by assumption. rewrite (into_dead _ _ C1). rewrite release_dead by exact Hr.
  rewrite He, C2. rewrite resize_zeros by assumption. change rd_raw_double with rd_raw_size.
  rewrite (into_dead _ _ C3). rewrite release_dead by exact Hr. eexists. reflexivity.
Qed.

Lemma into_ZB : forall m vs, Forall size_ok vs -> m = 8 * zlen (repeat 0 (List.length vs)) ->
  ZB (rd_raw_into 8 m rd_raw_size (repeat 0 (List.length vs))) (words8 vs) vs.
Proof.
  intros m vs F -> r. rewrite rd_raw_into_full by reflexivity || lia.
  apply ZB_array; [apply repeat_length|exact F].
Qed.

Lemma into_cut : forall m vs k, Forall size_ok vs -> m = 8 * zlen (repeat 0 (List.length vs)) ->
  (k < 8 * List.length vs)%nat ->
  rd_raw_into 8 m rd_raw_size (repeat 0 (List.length vs)) (opened (firstn k (words8 vs))) =
  Ok (cut_words k vs, dead).
Proof.
  intros m vs k F -> Hk. rewrite rd_raw_into_full by reflexivity || lia. apply array_cut; assumption.
Qed.

Lemma into_CT : forall m vs, Forall size_ok vs -> m = 8 * zlen (repeat 0 (List.length vs)) ->
  CT (rd_raw_into 8 m rd_raw_size (repeat 0 (List.length vs))) (words8 vs) (fun _ => True).
Proof.
  intros m vs F E k Hk. rewrite words8_length in Hk. rewrite into_cut by assumption. eauto.
Qed.

Section Block.
Variables (c : cfg) (b : NodeBlock).
Hypothesis ok : node_block_ok c false b.

Lemma block_facts :
  0 <= nb_num b /\ 0 <= node_width b /\ fits c 8 (nb_num b) /\ fits c 8 (nb_num b * node_width b) /\
  Z.to_nat (nb_num b) = List.length (nb_tags b) /\
  Z.to_nat (nb_num b * node_width b) = List.length (nb_data b) /\
  size_ok (nb_num b) /\ Forall size_ok (nb_data b).
Proof.
  destruct ok as [Hd Ht Hp Hp3 Hn Hts Hw Hdat Hv Hm1 Hm2]. rewrite <- Hdat.
  assert (0 <= nb_num b) by (rewrite Hn; apply zlen_nonneg).
  split; [assumption|]. split; [lia|]. split; [rewrite Hn; exact Hm1|]. split; [exact Hm2|].
  split; [rewrite Hn; apply Nat2Z.id|]. split; [apply Nat2Z.id|].
  split; [rewrite Hn; exact (fits_size_ok' _ _ _ _ Hm1 eq_refl)|eapply dbls_ok_b; exact Hv].
Qed.

(** Up to the coordinates. *)
Lemma block_head_run : exists h : list Z -> M NodeBlock,
  (forall k, (k < 8 * List.length (nb_data b))%nat ->
    v41_node_block_binary c nb_default (opened (block_head b ++ firstn k (words8 (nb_data b)))) =
    h (cut_words k (nb_data b)) dead) /\
  (forall rest, v41_node_block_binary c nb_default (opened (block_payload b ++ rest)) =
    h (nb_data b) (opened rest)) /\
  forall d s, h d s = bind (assert_good c) (fun _ => ret (with_data d b)) s.
Proof.
  destruct block_facts as (Hn0 & Hw0 & F1 & F2 & L1 & L2 & Hs & Hds).
  destruct (counts c _ _ Hn0 Hw0 F1 F2) as (C1 & C2 & C3).
  destruct ok as [Hd Ht Hp Hp3 Hn Hts Hw Hdat Hv Hm1 Hm2].
  assert (P : 0 <= nb_num b * node_width b) by (apply Z.mul_nonneg_nonneg; assumption).
  exists (fun d => bind (assert_good c) (fun _ => ret (with_data d b))).
  assert (H : forall rest, v41_node_block_binary c nb_default (opened (block_head b ++ rest)) =
    bind (rd_raw_into 8 (to_size (to_size (sz_double * nb_num b) * node_width b)) rd_raw_size
            (repeat 0 (List.length (nb_data b))))
         (fun d => bind (assert_good c) (fun _ => ret (with_data d b))) (opened rest)).
  { intro rest. unfold v41_node_block_binary, block_head. cbn [nb_default nb_dim nb_tag nb_parametric nb_num nb_tags nb_data].
    rewrite <- !app_assoc.
    unfold bind at 1. rewrite ZB_int by exact Hd. unfold bind at 1. rewrite ZB_int by exact Ht.
    unfold bind at 1. rewrite ZB_int by exact Hp. unfold bind at 1. rewrite ZB_size by exact Hs.
    unfold bind at 1. rewrite assert_good_ok by reflexivity.
    unfold bind at 1, lift at 1. change sz_size with 8 in C1 |- *. change sz_double with 8 in C3 |- *.
    rewrite resize_zeros by assumption.
    unfold bind at 1. rewrite L1 in C1 |- *. rewrite (into_ZB _ _ Hts C1).
    unfold bind at 1. rewrite assert_good_ok by reflexivity.
    unfold bind at 1, lift at 1. rewrite epn_ok by exact Hw.
    unfold bind at 1, lift at 1. rewrite C2. rewrite resize_zeros by assumption.
    rewrite L2. change rd_raw_double with rd_raw_size. reflexivity. }
  rewrite L2 in C3. change sz_double with 8 in *. split; [|split].
  - intros k Hk. rewrite H. unfold bind at 1. rewrite into_cut by assumption. reflexivity.
  - intro rest. unfold block_payload. rewrite <- app_assoc, H. unfold bind at 1. rewrite (into_ZB _ _ Hds C3). reflexivity.
  - reflexivity.
Qed.

Lemma with_own_data : with_data (nb_data b) b = b.
Proof. destruct b; reflexivity. Qed.

Lemma block_ZB : ZB (v41_node_block_binary c nb_default) (block_payload b) b.
Proof.
  destruct block_head_run as (h & _ & H & E). intro rest. rewrite H, E. unfold bind.
  rewrite assert_good_ok by reflexivity. rewrite with_own_data. reflexivity.
Qed.

Lemma block_cut_release : forall k, ndebug c = true -> (k < 8 * List.length (nb_data b))%nat ->
  v41_node_block_binary c nb_default (opened (block_head b ++ firstn k (words8 (nb_data b)))) =
  Ok (with_data (cut_words k (nb_data b)) b, dead).
Proof.
  intros k Hr Hk. destruct block_head_run as (h & H & _ & E). rewrite H by exact Hk. rewrite E.
  unfold bind. rewrite release_dead by exact Hr. reflexivity.
Qed.

Lemma block_eq : v41_node_block_binary c nb_default =
  bind (op (rd_raw_int 0)) (fun dim => bind (op (rd_raw_int 0)) (fun tag => bind (op (rd_raw_int 0)) (fun par =>
  bind (op (rd_raw_size 0)) (fun num => block_tail c dim tag par num)))).
Proof. reflexivity. Qed.

(** What follows the numbers, cut. *)
Lemma tail_CT : ndebug c = true ->
  CT (block_tail c (nb_dim b) (nb_tag b) (nb_parametric b) (nb_num b))
     (words8 (nb_tags b) ++ words8 (nb_data b)) (fun _ => True).
Proof.
  intro Hr. destruct block_facts as (Hn0 & Hw0 & F1 & F2 & L1 & L2 & Hs & Hds).
  destruct (counts c _ _ Hn0 Hw0 F1 F2) as (C1 & C2 & C3).
  destruct ok as [Hd Ht Hp Hp3 Hn Hts Hw Hdat Hv Hm1 Hm2].
  assert (P : 0 <= nb_num b * node_width b) by (apply Z.mul_nonneg_nonneg; assumption).
  unfold block_tail. change sz_size with 8 in *. change sz_double with 8 in *.
  eapply CT_bind0; [intros; apply assert_good_ok; assumption|].
  eapply CT_bind0; [intros; apply lift_ok; apply resize_zeros; assumption|].
  pose proof (into_dead _ _ C3) as D3. rewrite L1 in *. rewrite L2 in *.
  assert (Q : CT (bind (rd_raw_into 8 (to_size (to_size (8 * nb_num b) * node_width b)) rd_raw_double
                 (repeat 0 (List.length (nb_data b)))) (fun data =>
          assert_good c ;;
          ret {| nb_dim := nb_dim b; nb_tag := nb_tag b; nb_parametric := nb_parametric b; nb_num := nb_num b;
                 nb_tags := nb_tags b; nb_data := data |})) (words8 (nb_data b)) (fun _ => True)).
  { eapply CT_last; [apply into_CT; assumption|].
    intros x _. unfold bind. rewrite release_dead by exact Hr. eexists. split; [reflexivity|exact I]. }
  eapply CT_bind; [apply into_CT; assumption| |apply into_ZB; assumption|].
  - intros x _. unfold bind at 1. rewrite release_dead by exact Hr.
    unfold bind at 1, lift at 1. rewrite epn_ok by exact Hw. unfold bind at 1, lift at 1. rewrite C2.
    rewrite resize_zeros by assumption. rewrite L2. change rd_raw_double with rd_raw_size.
    unfold bind at 1. rewrite D3. unfold bind. rewrite release_dead by exact Hr. eexists. split; [reflexivity|exact I].
  - eapply CT_bind0; [intros; apply assert_good_ok; assumption|].
    eapply CT_bind0; [intros; apply lift_ok; apply epn_ok; exact Hw|].
    eapply CT_bind0; [intros; apply lift_ok; rewrite C2; apply resize_zeros; assumption|].
    rewrite L2. exact Q.
Qed.

Lemma epn0 : forall dim, entries_per_node 0 dim = Ok 3.
Proof. reflexivity. Qed.

Lemma fits_0 : forall n, 0 <= n -> fits c 8 n -> fits c 8 0.
Proof. intros n H F. eapply fits_le; [|reflexivity|exact F]. lia. Qed.

Lemma block_CT : ndebug c = true -> 0 <= nb_parametric b <= 3 ->
  CT (v41_node_block_binary c nb_default) (block_payload b) (fun _ => True).
Proof.
  intros Hr Hpar. pose proof (tail_CT Hr) as HT.
  destruct block_facts as (Hn0 & Hw0 & F1 & F2 & L1 & L2 & Hs & Hds).
  pose proof (fits_0 _ Hn0 F1) as F0.
  destruct ok as [Hd Ht Hp Hp3 Hn Hts Hw Hdat Hv Hm1 Hm2].
  rewrite block_eq. unfold block_payload, block_head. rewrite <- !app_assoc.
  assert (D : forall dim tag par w, entries_per_node par dim = Ok w -> 0 <= w ->
    exists v, block_tail c dim tag par 0 dead = Ok (v, dead)).
  { intros dim tag par w E Hw'. apply tail_dead with (w := w); auto; lia. }
  eapply CT_bind; [apply CT_int_any| |apply ZB_int; exact Hd|].
  { intros x _. unfold bind. cbn [op]. change (rd_raw_int 0 dead) with (0, dead). change (rd_raw_size 0 dead) with (0, dead).
    cbv iota beta. destruct (D x 0 0 3 (epn0 x) ltac:(lia)) as (v & E). exists v. split; [exact E|exact I]. }
  eapply CT_bind; [apply CT_int_any| |apply ZB_int; exact Ht|].
  { intros x _. unfold bind. cbn [op]. change (rd_raw_int 0 dead) with (0, dead). change (rd_raw_size 0 dead) with (0, dead).
    cbv iota beta. destruct (D (nb_dim b) x 0 3 (epn0 _) ltac:(lia)) as (v & E). exists v. split; [exact E|exact I]. }
  eapply CT_bind; [apply (CT_int_small (nb_parametric b)); lia| |apply ZB_int; exact Hp|].
  { intros x Hx. unfold bind. cbn [op]. change (rd_raw_size 0 dead) with (0, dead).
    cbv iota beta. destruct Hx as [->| ->].
    - destruct (D (nb_dim b) (nb_tag b) (nb_parametric b) (node_width b)) as (v & E); [apply epn_ok; exact Hw|lia|].
      exists v. split; [exact E|exact I].
    - destruct (D (nb_dim b) (nb_tag b) 0 3 (epn0 _) ltac:(lia)) as (v & E). exists v. split; [exact E|exact I]. }
  eapply CT_bind; [apply CT_size; exact Hn0| |apply ZB_size; exact Hs|exact HT].
  intros x Hx. cbv beta in Hx. destruct (tail_dead c (nb_dim b) (nb_tag b) (nb_parametric b) x (node_width b)) as (v & E).
  - exact Hr.
  - apply epn_ok. exact Hw.
  - lia.
  - lia.
  - eapply fits_le; [exact Hx|reflexivity|exact F1].
  - eapply fits_le; [|reflexivity|exact F2]. split; [apply Z.mul_nonneg_nonneg; lia|].
    apply Z.mul_le_mono_nonneg_r; lia.
  - exists v. split; [exact E|exact I].
Qed.

(** With assertions. *)
Lemma block_CA : ndebug c = false -> CA (v41_node_block_binary c nb_default) (block_payload b).
Proof.
  intro Hr.
  destruct block_facts as (Hn0 & Hw0 & F1 & F2 & L1 & L2 & Hs & Hds).
  destruct (counts c _ _ Hn0 Hw0 F1 F2) as (C1 & C2 & C3).
  destruct ok as [Hd Ht Hp Hp3 Hn Hts Hw Hdat Hv Hm1 Hm2].
  assert (P : 0 <= nb_num b * node_width b) by (apply Z.mul_nonneg_nonneg; assumption).
  rewrite block_eq. unfold block_payload, block_head. rewrite <- !app_assoc.
  assert (D : forall dim tag par num, block_tail c dim tag par num dead = Abort).
  { intros. unfold block_tail, bind at 1. rewrite debug_dead by exact Hr. reflexivity. }
  eapply CA_CT_bind; [apply CT_int_any| |apply ZB_int; exact Hd|].
  { intros x. unfold bind. cbn [op]. change (rd_raw_int 0 dead) with (0, dead). change (rd_raw_size 0 dead) with (0, dead).
    cbv iota beta. apply D. }
  eapply CA_CT_bind; [apply CT_int_any| |apply ZB_int; exact Ht|].
  { intros x. unfold bind. cbn [op]. change (rd_raw_int 0 dead) with (0, dead). change (rd_raw_size 0 dead) with (0, dead).
    cbv iota beta. apply D. }
  eapply CA_CT_bind; [apply CT_int_any| |apply ZB_int; exact Hp|].
  { intros x. unfold bind. cbn [op]. change (rd_raw_size 0 dead) with (0, dead). cbv iota beta. apply D. }
  eapply CA_CT_bind; [apply CT_size; exact Hn0| |apply ZB_size; exact Hs|].
  { intro x. apply D. }
  unfold block_tail. change sz_size with 8 in *. change sz_double with 8 in *.
  eapply CA_bind0; [intros; apply assert_good_ok; assumption|].
  eapply CA_bind0; [intros; apply lift_ok; apply resize_zeros; assumption|].
  rewrite L1 in *. rewrite L2 in *.
  eapply CA_CT_bind; [apply into_CT; assumption| |apply into_ZB; assumption|].
  { intro x. unfold bind at 1. rewrite debug_dead by exact Hr. reflexivity. }
  eapply CA_bind0; [intros; apply assert_good_ok; assumption|].
  eapply CA_bind0; [intros; apply lift_ok; apply epn_ok; exact Hw|].
  eapply CA_bind0; [intros; apply lift_ok; rewrite C2; apply resize_zeros; assumption|].
  rewrite L2. change rd_raw_double with rd_raw_size.
  rewrite <- (app_nil_r (words8 (nb_data b))).
  eapply CA_CT_bind; [apply into_CT; assumption| |apply into_ZB; assumption|apply CA_nil].
  intro x. unfold bind at 1. rewrite debug_dead by exact Hr. reflexivity.
Qed.
End Block.

(** ** The section *)

Lemma block_dead : forall c, ndebug c = true -> fits c 8 0 ->
  v41_node_block_binary c nb_default dead = Ok (no_block, dead).
Proof.
  intros c Hr F0. rewrite block_eq. transitivity (block_tail c 0 0 0 0 dead); [reflexivity|].
  unfold block_tail, bind, lift. rewrite release_dead by exact Hr.
  change sz_size with 8. change sz_double with 8. rewrite resize_zeros by (lia || exact F0).
  rewrite (into_dead (to_size (8 * 0)) (Z.to_nat 0)) by reflexivity. rewrite release_dead by exact Hr. rewrite epn0.
  change (to_size (0 * 3)) with 0. rewrite resize_zeros by (lia || exact F0).
  change rd_raw_double with rd_raw_size.
  rewrite (into_dead (to_size (to_size (8 * 0) * 3)) (Z.to_nat 0)) by reflexivity.
  rewrite release_dead by exact Hr. reflexivity.
Qed.

Section MapM.
Context {A B C : Type} (f : A -> M B) (g : C -> bytes) (h : C -> B) (x : A).

Lemma mapM_at : forall before t z y n,
  (forall v, In v before -> ZB (f x) (g v) (h v)) ->
  f x (opened t) = Ok (z, dead) -> f x dead = Ok (y, dead) ->
  mapM f (repeat x (List.length before + S n)) (opened (List.concat (map g before) ++ t)) =
  Ok (map h before ++ z :: repeat y n, dead).
Proof.
  induction before as [|v before IH]; intros t z y n HB H1 HD.
  - cbn [List.length Nat.add repeat mapM map List.concat app]. unfold bind at 1. rewrite H1.
    unfold bind. rewrite (mapM_dead _ _ _ _ y) by exact HD. reflexivity.
  - cbn [List.length Nat.add repeat mapM map List.concat app]. unfold bind at 1.
    rewrite <- app_assoc, HB by (left; reflexivity). unfold bind.
    rewrite (IH t z y n) by (auto; intros; apply HB; right; assumption). reflexivity.
Qed.

Lemma mapM_CT : forall vs y,
  (forall v, In v vs -> ZB (f x) (g v) (h v) /\ CT (f x) (g v) (fun _ => True)) ->
  f x dead = Ok (y, dead) ->
  CT (mapM f (repeat x (List.length vs))) (List.concat (map g vs)) (fun _ => True).
Proof.
  intros vs y H HD. induction vs as [|v vs IH]; [apply CT_nil|].
  cbn [List.length repeat mapM map List.concat]. destruct (H v (or_introl eq_refl)) as [HZ HC].
  eapply CT_bind; [exact HC| |exact HZ|].
  - intros z _. unfold bind. rewrite (mapM_dead _ _ _ _ y) by exact HD. eexists. split; [reflexivity|exact I].
  - eapply CT_last; [apply IH; intros; apply H; right; assumption|].
    intros l _. eexists. split; [reflexivity|exact I].
Qed.

Lemma mapM_CA : forall vs, (forall v, In v vs -> ZB (f x) (g v) (h v) /\ CA (f x) (g v)) ->
  CA (mapM f (repeat x (List.length vs))) (List.concat (map g vs)).
Proof.
  induction vs as [|v vs IH]; intro H; [apply CA_nil|].
  cbn [List.length repeat mapM map List.concat]. destruct (H v (or_introl eq_refl)) as [HZ HC].
  eapply CA_bind; [|exact HZ|].
  - intros k Hk. left. apply HC. exact Hk.
  - intros k Hk. unfold bind. rewrite (IH ltac:(intros; apply H; right; assumption) k Hk). reflexivity.
Qed.
End MapM.

Definition ended : istream := {| rest := []; eofb := true; failb := false |}.

Lemma eat1_some : forall b, b <> [] -> eat1 (opened (endl ++ b)) = (tt, opened b).
Proof.
  intros b Hb. pose proof (eat1_EX' b Hb) as H. unfold op in H. cbn [app] in H.
  destruct (eat1 (opened (endl ++ b))). congruence.
Qed.

Lemma eat1_none : eat1 (opened (endl ++ [])) = (tt, ended).
Proof. reflexivity. Qed.

(** After the newline. *)
Definition n_start : Nodes :=
  {| n_num_blocks := 0; n_num_nodes := 0; n_min := SIZE_MAX; n_max := 0; n_blocks := [] |}.
Definition nodes_reader (c : cfg) : M Nodes :=
  nblk <- op (rd_raw_size 0) ;;
  nn <- op (rd_raw_size 0) ;;
  mn <- op (rd_raw_size SIZE_MAX) ;;
  mx <- op (rd_raw_size 0) ;;
  assert_good c ;;
  blocks0 <- lift (resize c sz_NodeBlock nb_default nblk []) ;;
  blocks <- mapM (v41_node_block_binary c) blocks0 ;;
  ret {| n_num_blocks := nblk; n_num_nodes := nn; n_min := mn; n_max := mx;
         n_blocks := blocks |}.

Lemma nodes_reader_eq : forall c, v41_load_nodes_binary c n_start = bind (op eat1) (fun _ => nodes_reader c).
Proof. reflexivity. Qed.

Lemma size_bind_dead : forall B (f : Z -> M B), bind (op (rd_raw_size 0)) f dead = f 0 dead.
Proof. reflexivity. Qed.

Lemma max_bind_dead : forall B (f : Z -> M B), bind (op (rd_raw_size SIZE_MAX)) f dead = f SIZE_MAX dead.
Proof. reflexivity. Qed.

Lemma assert_bind_dead : forall B c (f : unit -> M B), ndebug c = false -> bind (assert_good c) f dead = Abort.
Proof. intros B c f H. unfold bind. rewrite debug_dead by exact H. reflexivity. Qed.

Section Nodes.
Variables (c : cfg) (n : Nodes).
Hypotheses (ok : nodes_ok c false n) (okn : size_ok (n_num_nodes n)).

Lemma nodes_facts : size_ok (n_num_blocks n) /\ Z.to_nat (n_num_blocks n) = List.length (n_blocks n) /\
  0 <= n_num_blocks n /\ fits c sz_NodeBlock (n_num_blocks n) /\ fits c 8 0.
Proof.
  destruct ok as [Hn Hmin Hmax Hm Hb]. rewrite Hn. pose proof (zlen_nonneg _ (n_blocks n)) as Z0.
  split; [exact (fits_size_ok' _ _ _ _ Hm eq_refl)|]. split; [apply Nat2Z.id|]. split; [exact Z0|].
  split; [exact Hm|]. destruct Hm as [_ Hm]. split; [vm_compute; discriminate|].
  assert (0 <= zlen (n_blocks n) * sz_NodeBlock) by (apply Z.mul_nonneg_nonneg; [exact Z0|discriminate]). lia.
Qed.

Lemma blocks_ok : forall b, In b (n_blocks n) -> node_block_ok c false b.
Proof. destruct ok as [Hn Hmin Hmax Hm Hb]. rewrite Forall_forall in Hb. exact Hb. Qed.

Lemma nodes_head_run : forall r, nodes_reader c (opened (nodes_head n ++ r)) =
  bind (mapM (v41_node_block_binary c) (repeat nb_default (List.length (n_blocks n))))
    (fun blocks => ret {| n_num_blocks := n_num_blocks n; n_num_nodes := n_num_nodes n; n_min := n_min n;
                          n_max := n_max n; n_blocks := blocks |}) (opened r).
Proof.
  intro r. destruct nodes_facts as (S1 & L1 & Z1 & F1 & _). destruct ok as [Hn Hmin Hmax Hm Hb].
  unfold nodes_reader, nodes_head. rewrite <- !app_assoc.
  do 4 (unfold bind at 1; rewrite ZB_size by assumption).
  unfold bind at 1. rewrite assert_good_ok by reflexivity. unfold bind at 1, lift.
  rewrite resize_fresh by (reflexivity || lia || apply F1). rewrite L1. reflexivity.
Qed.

Lemma nodes_at_release : forall before b after k, ndebug c = true -> n_blocks n = before ++ b :: after ->
  (k < 8 * List.length (nb_data b))%nat ->
  nodes_reader c (opened (nodes_head n ++ List.concat (map block_payload before) ++ block_head b ++
                          firstn k (words8 (nb_data b)))) =
  Ok ({| n_num_blocks := n_num_blocks n; n_num_nodes := n_num_nodes n; n_min := n_min n; n_max := n_max n;
         n_blocks := before ++ with_data (cut_words k (nb_data b)) b :: repeat no_block (List.length after) |}, dead).
Proof.
  intros before b after k Hr E Hk. rewrite nodes_head_run.
  destruct nodes_facts as (_ & _ & _ & _ & F0). pose proof blocks_ok as HB. rewrite E in *.
  unfold bind. rewrite app_length. cbn [List.length].
  rewrite (mapM_at _ block_payload (fun b => b) _ before _ (with_data (cut_words k (nb_data b)) b) no_block).
  - rewrite map_id. reflexivity.
  - intros v Hv. apply block_ZB. apply HB. apply in_or_app. left. exact Hv.
  - apply block_cut_release; [|exact Hr|exact Hk]. apply HB. apply in_or_app. right. left. reflexivity.
  - apply block_dead; assumption.
Qed.

Lemma nodes_ZB : ZB (nodes_reader c) (nodes_payload n) n.
Proof.
  intro r. unfold nodes_payload. rewrite <- app_assoc, nodes_head_run. unfold bind.
  rewrite (mapM_ZB _ _ _ _ block_payload (fun b => b)).
  - rewrite map_id. destruct n; reflexivity.
  - apply repeat_length.
  - intros x v Hx Hv. apply repeat_spec in Hx. subst x. apply block_ZB, blocks_ok. exact Hv.
Qed.

Lemma nodes_CT : ndebug c = true -> Forall (fun b => 0 <= nb_parametric b <= 3) (n_blocks n) ->
  CT (nodes_reader c) (nodes_payload n) (fun _ => True).
Proof.
  intros Hr HP. destruct nodes_facts as (S1 & L1 & Z1 & F1 & F0). pose proof blocks_ok as HB.
  destruct ok as [Hn Hmin Hmax Hm Hb]. rewrite Forall_forall in HP.
  assert (D : forall nblk nn mn mx, 0 <= nblk <= n_num_blocks n ->
    exists v, bind (assert_good c) (fun _ => bind (lift (resize c sz_NodeBlock nb_default nblk [])) (fun blocks0 =>
      bind (mapM (v41_node_block_binary c) blocks0) (fun blocks =>
      ret {| n_num_blocks := nblk; n_num_nodes := nn; n_min := mn; n_max := mx; n_blocks := blocks |}))) dead
    = Ok (v, dead) /\ True).
  { intros nblk nn mn mx H. unfold bind, lift. rewrite release_dead by exact Hr.
    destruct (fits_le c sz_NodeBlock nblk _ H eq_refl F1) as [G1 G2].
    rewrite resize_fresh by (reflexivity || lia || assumption).
    rewrite (mapM_dead _ _ _ _ no_block) by (apply block_dead; assumption).
    eexists. split; [reflexivity|exact I]. }
  unfold nodes_reader, nodes_payload, nodes_head. rewrite <- !app_assoc.
  destruct S1 as [Z1' _]. pose proof (proj1 okn) as Z2. pose proof (proj1 Hmin) as Z3. pose proof (proj1 Hmax) as Z4.
  eapply CT_bind; [apply CT_size; assumption| |apply ZB_size; rewrite Hn; exact (fits_size_ok' _ _ _ _ Hm eq_refl)|].
  { intros x Hx. cbv beta in Hx. rewrite size_bind_dead, max_bind_dead, size_bind_dead. apply D. exact Hx. }
  eapply CT_bind; [apply CT_size; assumption| |apply ZB_size; exact okn|].
  { intros x Hx. rewrite max_bind_dead, size_bind_dead. apply D. lia. }
  eapply CT_bind; [apply CT_size_any| |apply ZB_size; assumption|].
  { intros x Hx. rewrite size_bind_dead. apply D. lia. }
  eapply CT_bind; [apply CT_size; assumption| |apply ZB_size; assumption|].
  { intros x Hx. apply D. lia. }
  eapply CT_bind0; [intros; apply assert_good_ok; assumption|].
  eapply CT_bind0; [intros; apply lift_ok; apply resize_fresh; [reflexivity|exact Z1|apply F1|apply F1]|].
  rewrite L1. eapply CT_last.
  - apply (mapM_CT _ block_payload (fun b => b) nb_default _ no_block); [|apply block_dead; assumption].
    intros v Hv. split; [apply block_ZB; auto|apply block_CT; auto].
  - intros l _. eexists. split; [reflexivity|exact I].
Qed.

Lemma nodes_CA : ndebug c = false -> CA (nodes_reader c) (nodes_payload n).
Proof.
  intros Hr. destruct nodes_facts as (S1 & L1 & Z1 & F1 & F0). pose proof blocks_ok as HB.
  destruct ok as [Hn Hmin Hmax Hm Hb].
  unfold nodes_reader, nodes_payload, nodes_head. rewrite <- !app_assoc.
  pose proof (proj1 okn) as Z2. pose proof (proj1 Hmin) as Z3. pose proof (proj1 Hmax) as Z4.
  eapply CA_CT_bind; [apply CT_size; assumption| |apply ZB_size; assumption|].
  { intros x. rewrite ?size_bind_dead, ?max_bind_dead, ?size_bind_dead. apply assert_bind_dead. exact Hr. }
  eapply CA_CT_bind; [apply CT_size; assumption| |apply ZB_size; exact okn|].
  { intros x. rewrite ?size_bind_dead, ?max_bind_dead, ?size_bind_dead. apply assert_bind_dead. exact Hr. }
  eapply CA_CT_bind; [apply CT_size_any| |apply ZB_size; assumption|].
  { intros x. rewrite ?size_bind_dead, ?max_bind_dead, ?size_bind_dead. apply assert_bind_dead. exact Hr. }
  eapply CA_CT_bind; [apply CT_size; assumption| |apply ZB_size; assumption|].
  { intros x. rewrite ?size_bind_dead, ?max_bind_dead, ?size_bind_dead. apply assert_bind_dead. exact Hr. }
  eapply CA_bind0; [intros; apply assert_good_ok; assumption|].
  eapply CA_bind0; [intros; apply lift_ok; apply resize_fresh; [reflexivity|exact Z1|apply F1|apply F1]|].
  rewrite L1. intros k Hk. unfold bind.
  rewrite (mapM_CA _ block_payload (fun b => b) nb_default (n_blocks n)); [reflexivity| |exact Hk].
  intros v Hv. split; [apply block_ZB; auto|apply block_CA; auto].
Qed.
End Nodes.
