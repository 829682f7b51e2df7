(** Facts about bytes, encodings and decimal digits. *)

From Verif Require Import Model.Cxx.

Ltac Zify.zify_post_hook ::= Z.div_mod_to_equations.

Lemma b2z_range : forall b, 0 <= b2z b < 256.
Proof. destruct b; vm_compute; split; congruence. Qed.

Lemma z2b_b2z : forall b, z2b (b2z b) = b.
Proof. destruct b; reflexivity. Qed.

Lemma b2z_z2b : forall z, b2z (z2b z) = z mod 256.
Proof.
  intro z. unfold z2b.
  assert (H : 0 <= z mod 256 < 256) by (apply Z.mod_pos_bound; lia).
  destruct (Byte.of_N (Z.to_N (z mod 256))) eqn:E.
  - apply Byte.to_of_N in E. unfold b2z. rewrite E. rewrite Z2N.id; lia.
  - apply Byte.of_N_None_iff in E. lia.
Qed.

Lemma byte_eqb_eq : forall a b, Byte.eqb a b = true <-> a = b.
Proof.
  intros a b. split.
  - apply Byte.byte_dec_bl.
  - apply Byte.byte_dec_lb.
Qed.

Lemma byte_eqb_refl : forall a, Byte.eqb a a = true.
Proof. intro; apply byte_eqb_eq; reflexivity. Qed.

Lemma bytes_eqb_eq : forall a b, bytes_eqb a b = true <-> a = b.
Proof.
  induction a as [|x a IH]; destruct b as [|y b]; cbn [bytes_eqb]; split; intro H;
    try reflexivity; try discriminate.
  - apply andb_true_iff in H. destruct H as [H1 H2].
    apply byte_eqb_eq in H1. apply IH in H2. congruence.
  - injection H as -> ->. rewrite byte_eqb_refl. cbn. apply IH. reflexivity.
Qed.

Lemma bytes_eqb_refl : forall a, bytes_eqb a a = true.
Proof. intro; apply bytes_eqb_eq; reflexivity. Qed.

Lemma bytes_eqb_neq : forall a b, bytes_eqb a b = false <-> a <> b.
Proof.
  intros a b. rewrite <- bytes_eqb_eq. destruct (bytes_eqb a b); split; congruence.
Qed.

(** ** Little endian *)

Lemma le_length : forall n z, List.length (le n z) = n.
Proof. induction n; intros; cbn [le List.length]; [reflexivity|]. rewrite IHn. reflexivity. Qed.

Lemma unle_le : forall n z, unle (le n z) = z mod 256 ^ Z.of_nat n.
Proof.
  induction n as [|n IH]; intro z.
  - cbn. rewrite Z.mod_1_r. reflexivity.
  - cbn [le unle]. rewrite IH, b2z_z2b.
    rewrite Nat2Z.inj_succ, Z.pow_succ_r by lia.
    rewrite Z.rem_mul_r by lia. reflexivity.
Qed.

Lemma unle_le8 : forall z, 0 <= z < two64 -> unle (le 8 z) = z.
Proof.
  intros z H. rewrite unle_le. apply Z.mod_small. exact H.
Qed.

Lemma unle_le4 : forall z, unle (le 4 z) = z mod two32.
Proof. intro z. rewrite unle_le. reflexivity. Qed.

Lemma unle_range : forall b, 0 <= unle b < 256 ^ zlen b.
Proof.
  unfold zlen. induction b as [|x b IH].
  - cbn. lia.
  - cbn [unle List.length]. rewrite Nat2Z.inj_succ, Z.pow_succ_r by lia.
    pose proof (b2z_range x). lia.
Qed.

Lemma le_unle : forall b, le (List.length b) (unle b) = b.
Proof.
  induction b as [|x b IH]; [reflexivity|].
  cbn [List.length le unle].
  assert (Hx := b2z_range x).
  replace (z2b (b2z x + 256 * unle b)) with x.
  - f_equal. replace ((b2z x + 256 * unle b) / 256) with (unle b). exact IH.
    symmetry. rewrite Z.add_comm, Z.mul_comm, Z.div_add_l by lia. rewrite Z.div_small; lia.
  - unfold z2b. replace ((b2z x + 256 * unle b) mod 256) with (b2z x).
    + rewrite <- (z2b_b2z x) at 1. unfold z2b. rewrite Z.mod_small; [reflexivity|lia].
    + rewrite Z.mul_comm, Z_mod_plus_full, Z.mod_small; lia.
Qed.

Lemma to_int_id : forall z, INT_MIN <= z <= INT_MAX -> to_int z = z.
Proof.
  unfold to_int, INT_MIN, INT_MAX, two32. intros z H.
  destruct (z mod 4294967296 <? 2147483648) eqn:E;
    [apply Z.ltb_lt in E | apply Z.ltb_ge in E]; lia.
Qed.

Lemma to_int_mod : forall z, to_int (z mod two32) = to_int z.
Proof. intro z. unfold to_int. rewrite Z.mod_mod by (unfold two32; lia). reflexivity. Qed.

Lemma to_int_range : forall z, INT_MIN <= to_int z <= INT_MAX.
Proof.
  intro z. unfold to_int, INT_MIN, INT_MAX, two32.
  destruct (z mod 4294967296 <? 2147483648) eqn:E;
    [apply Z.ltb_lt in E | apply Z.ltb_ge in E]; lia.
Qed.

Lemma to_size_range : forall z, 0 <= to_size z < two64.
Proof. intro z. apply Z.mod_pos_bound. unfold two64. lia. Qed.

Lemma to_size_id : forall z, 0 <= z < two64 -> to_size z = z.
Proof. intros z H. apply Z.mod_small. exact H. Qed.

Lemma to_int_le4 : forall z, INT_MIN <= z <= INT_MAX -> to_int (unle (le 4 z)) = z.
Proof. intros z H. rewrite unle_le4, to_int_mod. apply to_int_id. exact H. Qed.

(** ** Decimal digits *)

Definition digit (d : Z) : Prop := 0 <= d < 10.

Lemma digit_cases : forall d, digit d ->
  d = 0 \/ d = 1 \/ d = 2 \/ d = 3 \/ d = 4 \/ d = 5 \/ d = 6 \/ d = 7 \/ d = 8 \/ d = 9.
Proof. unfold digit. intros; lia. Qed.

Lemma digit_of_chr : forall d, digit d -> digit_of (digit_chr d) = Some d.
Proof.
  intros d H. apply digit_cases in H.
  repeat (destruct H as [->|H]; [reflexivity|]). subst; reflexivity.
Qed.

Lemma is_digit_chr : forall d, digit d -> is_digit (digit_chr d) = true.
Proof. intros d H. unfold is_digit. rewrite digit_of_chr; auto. Qed.

Lemma digit_of_range : forall b d, digit_of b = Some d -> digit d.
Proof. intros b d. destruct b; cbn; intro H; inversion H; unfold digit; lia. Qed.

Lemma ws_not_digit : forall b, is_ws b = true -> digit_of b = None.
Proof. destruct b; cbn; congruence. Qed.

Lemma digit_not_ws : forall d, is_ws (digit_chr d) = false.
Proof.
  intro d. unfold digit_chr.
  repeat match goal with |- context [if ?x then _ else _] => destruct x; [reflexivity|] end.
  reflexivity.
Qed.

Lemma digits_val_acc : forall l a,
  fold_left (fun acc d => 10 * acc + d) l a = a * 10 ^ zlen l + digits_val l.
Proof.
  unfold zlen, digits_val.
  induction l as [|d l IH]; intro a.
  - cbn [fold_left List.length]. change (Z.of_nat 0) with 0. rewrite Z.pow_0_r. lia.
  - cbn [fold_left List.length]. rewrite IH. rewrite (IH (10 * 0 + d)).
    rewrite Nat2Z.inj_succ, Z.pow_succ_r by lia. nia.
Qed.

Lemma digits_val_app : forall a b, digits_val (a ++ b) = digits_val a * 10 ^ zlen b + digits_val b.
Proof.
  intros a b. unfold digits_val at 1. rewrite fold_left_app. rewrite digits_val_acc. reflexivity.
Qed.

Lemma digits_val_cons : forall d l, digits_val (d :: l) = d * 10 ^ zlen l + digits_val l.
Proof.
  intros d l. change (d :: l) with ([d] ++ l). rewrite digits_val_app.
  replace (digits_val [d]) with d by (unfold digits_val; cbn [fold_left]; lia). reflexivity.
Qed.

Lemma digits_val_nonneg : forall l, Forall digit l -> 0 <= digits_val l.
Proof.
  intros l H; induction H as [|d l Hd Hl IH]; [reflexivity|].
  rewrite digits_val_cons. unfold digit in Hd.
  assert (0 <= 10 ^ zlen l) by (apply Z.pow_nonneg; lia). nia.
Qed.

Lemma digits_rev_val : forall fuel n, 0 <= n < 10 ^ Z.of_nat fuel ->
  digits_val (rev (digits_rev fuel n)) = n.
Proof.
  induction fuel as [|f IH]; intros n H.
  - change (Z.of_nat 0) with 0 in H. rewrite Z.pow_0_r in H.
    assert (n = 0) by lia. subst. reflexivity.
  - cbn [digits_rev]. destruct (n <? 10) eqn:E.
    + unfold digits_val. cbn [rev app fold_left]. lia.
    + apply Z.ltb_ge in E. cbn [rev]. rewrite digits_val_app. rewrite IH.
      * unfold zlen, digits_val. cbn [fold_left List.length]. change (10 ^ Z.of_nat 1) with 10. lia.
      * rewrite Nat2Z.inj_succ, Z.pow_succ_r in H by lia. split; [lia|].
        apply Z.div_lt_upper_bound; lia.
Qed.

Lemma digits_rev_digit : forall fuel n, 0 <= n -> Forall digit (digits_rev fuel n).
Proof.
  induction fuel as [|f IH]; intros n H; cbn [digits_rev]; [constructor|].
  destruct (n <? 10) eqn:E.
  - apply Z.ltb_lt in E. constructor; [unfold digit; lia|constructor].
  - apply Z.ltb_ge in E. constructor; [unfold digit; lia|]. apply IH. lia.
Qed.

Lemma dec_digits_val : forall n, 0 <= n -> digits_val (dec_digits n) = n.
Proof.
  intros n H. unfold dec_digits. apply digits_rev_val. split; [exact H|].
  rewrite Nat2Z.inj_succ, Z2Nat.id by apply Z.log2_nonneg.
  destruct (Z.eq_dec n 0) as [->|Hn].
  - change (Z.log2 0) with 0. reflexivity.
  - assert (Hl := Z.log2_spec n ltac:(lia)).
    apply Z.lt_le_trans with (2 ^ Z.succ (Z.log2 n)); [lia|].
    apply Z.pow_le_mono_l. lia.
Qed.

Lemma dec_digits_digit : forall n, 0 <= n -> Forall digit (dec_digits n).
Proof. intros n H. unfold dec_digits. apply Forall_rev. apply digits_rev_digit. exact H. Qed.

Lemma dec_digits_nonnil : forall n, dec_digits n <> [].
Proof.
  intros n H. unfold dec_digits in H.
  apply (f_equal (@rev Z)) in H. rewrite rev_involutive in H.
  cbn [digits_rev] in H. destruct (n <? 10); discriminate.
Qed.

(** ** Lists *)

Lemma zlen_nonneg : forall A (l : list A), 0 <= zlen l.
Proof. intros; unfold zlen; lia. Qed.

Lemma zlen_app : forall A (a b : list A), zlen (a ++ b) = zlen a + zlen b.
Proof. intros; unfold zlen; rewrite app_length; lia. Qed.

Lemma zlen_cons : forall A (x : A) l, zlen (x :: l) = zlen l + 1.
Proof. intros; unfold zlen; cbn [List.length]; lia. Qed.

Lemma zlen_nil : forall A, zlen (@nil A) = 0.
Proof. reflexivity. Qed.

Lemma zlen_map : forall A B (f : A -> B) l, zlen (map f l) = zlen l.
Proof. intros; unfold zlen; rewrite map_length; reflexivity. Qed.

Lemma to_nat_zlen : forall A (l : list A), Z.to_nat (zlen l) = List.length l.
Proof. intros; unfold zlen; apply Nat2Z.id. Qed.
