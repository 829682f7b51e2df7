(** Numbers as Python shows them: shortest integers, doubles with six decimals. *)

From Verif Require Import Spec.Python Proofs.BytesP Proofs.DblP Proofs.DecP Proofs.ShowP Proofs.RtBase
  Proofs.RoundP Proofs.NumeralsP Proofs.HeaderAnyP Proofs.IntShowP.

Ltac Zify.zify_post_hook ::= idtac.

(** ** Integers *)

Lemma digits_upper : forall t k n, digits t k n -> 0 <= n < 10 ^ k /\ 0 <= k /\ Z.of_nat (List.length t) = k.
Proof.
  intros t k n D. induction D as [|t k n c d D IH [Hd _]]; [cbn; lia|]. destruct IH as (B & K & L).
  rewrite Z.pow_add_r by lia. change (10 ^ 1) with 10. rewrite app_length. cbn [List.length]. lia.
Qed.

Lemma digits_rev_short : forall f n, 0 <= n < 10 ^ Z.of_nat f ->
  (List.length (digits_rev f n) <= 1)%nat \/ 10 ^ (Z.of_nat (List.length (digits_rev f n)) - 1) <= n.
Proof.
  induction f as [|f IH]; intros n Hn; [left; cbn; lia|]. cbn [digits_rev]. destruct (n <? 10) eqn:E; [left; cbn; lia|].
  apply Z.ltb_ge in E. right. cbn [List.length]. rewrite Nat2Z.inj_succ in *. rewrite Z.pow_succ_r in Hn by lia.
  assert (B : 0 <= n / 10 < 10 ^ Z.of_nat f).
  { split; [apply Z.div_pos; lia|]. apply Z.div_lt_upper_bound; lia. }
  pose proof (Z.mul_div_le n 10 ltac:(lia)) as M.
  replace (Z.succ (Z.of_nat (List.length (digits_rev f (n / 10)))) - 1)
    with (Z.of_nat (List.length (digits_rev f (n / 10)))) by lia.
  destruct (IH (n / 10) B) as [L|L].
  - destruct (List.length (digits_rev f (n / 10))) as [|[|k]]; [cbn; lia|change (10 ^ Z.of_nat 1) with 10; lia|lia].
  - destruct (List.length (digits_rev f (n / 10))) as [|k] eqn:Ek; [cbn; lia|].
    rewrite Nat2Z.inj_succ in *. rewrite Z.pow_succ_r by lia.
    replace (Z.succ (Z.of_nat k) - 1) with (Z.of_nat k) in L by lia. lia.
Qed.

Lemma dec_digits_min : forall n t k, 0 <= n -> digits t k n -> 1 <= k -> (List.length (show_nonneg n) <= List.length t)%nat.
Proof.
  intros n t k Hn D K. destruct (digits_upper t k n D) as (B & _ & L).
  unfold show_nonneg, dec_digits. rewrite map_length, rev_length.
  destruct (digits_rev_short (S (Z.to_nat (Z.log2 n))) n) as [S1|S1]; [split; [exact Hn|apply digits_fuel; exact Hn]|lia|].
  set (len := List.length (digits_rev _ n)) in *. clearbody len.
  assert (Z.of_nat len - 1 < k); [|lia].
  apply (Z.pow_lt_mono_r_iff 10); lia.
Qed.

Lemma to_string_shortest : forall z, shortest (to_string z) z.
Proof.
  intro z. split; [apply integer_show|]. intros t' (s & minus & t & k & n & -> & S & D & K & Hz).
  destruct (digits_upper t k n D) as (B & _ & L). unfold to_string, show_Z. rewrite app_length.
  destruct (z <? 0) eqn:E; [apply Z.ltb_lt in E|apply Z.ltb_ge in E].
  - destruct minus; cbn [signed] in Hz; [|lia]. inversion S; subst s. cbn [List.length].
    pose proof (dec_digits_min (- z) t k ltac:(lia)) as M. replace (- z) with n in * by lia.
    specialize (M D K). lia.
  - assert (z = n) by (destruct minus; cbn [signed] in Hz; lia). subst n.
    pose proof (dec_digits_min z t k E D K). lia.
Qed.

(** ** Doubles *)

Lemma dmag_finite : forall x, size_ok x -> dmag x < inf_mag -> finite x.
Proof.
  intros x Hx H. pose proof (dmag_range x Hx) as R. unfold finite.
  assert (E : (x / 2 ^ 52) mod 2 ^ 11 = dmag x / two52).
  { unfold dmag in *. change (two63 <=? x) with (dneg x) in *. destruct (dneg x) eqn:EN.
    - assert (Ex : x = (x - two63) + 2048 * two52) by (unfold two63, two52; lia).
      set (y := x - two63) in *. rewrite Ex. change (2 ^ 52) with two52.
      rewrite Z.div_add by discriminate.
      change 2048 with (1 * 2 ^ 11). rewrite Z.mod_add by discriminate. apply Z.mod_small.
      split; [apply Z.div_pos; [lia|reflexivity]|]. apply Z.div_lt_upper_bound; [reflexivity|].
      unfold inf_mag, two52 in *. lia.
    - change (2 ^ 52) with two52. apply Z.mod_small.
      split; [apply Z.div_pos; [lia|reflexivity]|]. apply Z.div_lt_upper_bound; [reflexivity|].
      unfold inf_mag, two52 in *. lia. }
  rewrite E. assert (dmag x / two52 < 2047); [|lia].
  apply Z.div_lt_upper_bound; [reflexivity|]. exact H.
Qed.

Lemma dmag_mod : forall x, size_ok x -> x mod 2 ^ 63 = dmag x.
Proof.
  intros x Hx. unfold size_ok in Hx. unfold dmag. destruct (two63 <=? x) eqn:E; [apply Z.leb_le in E|apply Z.leb_gt in E].
  - replace x with ((x - two63) + 1 * 2 ^ 63) at 1 by (change (2 ^ 63) with two63; lia).
    rewrite Z.mod_add by discriminate. apply Z.mod_small. change (2 ^ 63) with two63. unfold two63, two64 in *. lia.
  - apply Z.mod_small. change (2 ^ 63) with two63. lia.
Qed.

Lemma fixed_closest : forall x, size_ok x -> finite x ->
  closest_millionths (dval x) (signed (2 ^ 63 <=? x) (rne_div (mag_units (dmag x) * 1000000) (2 ^ 1074))).
Proof.
  intros x Hx Hf n'. change (2 ^ 63 <=? x) with (dneg x).
  assert (D : forall m, (Qabs (decimal m (-6) - dval x) ==
    frac (10 ^ 394 * Z.abs (m * 2 ^ 1074 - signed (dneg x) (mag_units (dmag x) * 1000000))))%Q).
  { intro m. rewrite decimal_frac by lia. rewrite (dval_frac x Hx Hf). rewrite frac_dist.
    apply frac_eq. unfold U. change (-6 + 400) with 394.
    assert (EP : P400 = 1000000 * 10 ^ 394) by (unfold P400; change 1000000 with (10 ^ 6); rewrite <- Z.pow_add_r by lia; reflexivity). rewrite EP.
    generalize (2 ^ 1074) as T. intro T. clear EP.
    assert (Hp : 0 < 10 ^ 394) by (apply Z.pow_pos_nonneg; lia). revert Hp. generalize (10 ^ 394) as p. intros p Hp.
    rewrite <- (Z.abs_eq p) at 3 by lia. rewrite <- Z.abs_mul. f_equal. unfold signed. destruct (dneg x); ring. }
  pose proof (mag_units_nonneg (dmag x) (proj1 (dmag_range x Hx))) as Nn.
  set (v := mag_units (dmag x) * 1000000) in *.
  assert (HT : 0 < 2 ^ 1074) by (apply Z.pow_pos_nonneg; lia).
  assert (Hp : 0 < 10 ^ 394) by (apply Z.pow_pos_nonneg; lia).
  set (r := rne_div v (2 ^ 1074)).
  assert (A : forall m, Z.abs (m * 2 ^ 1074 - signed (dneg x) v) = Z.abs (signed (dneg x) m * 2 ^ 1074 - v)).
  { intro m. unfold signed. destruct (dneg x); [|reflexivity]. rewrite <- Z.abs_opp. f_equal. ring. }
  assert (I : forall m, signed (dneg x) (signed (dneg x) m) = m) by (intro m; unfold signed; destruct (dneg x); lia).
  rewrite !D, !A, I. rewrite frac_lt, frac_eq.
  pose proof (rne_div_closest v (2 ^ 1074) (signed (dneg x) n') HT) as C. fold r in C.
  revert C Hp. generalize (10 ^ 394) as p. generalize (Z.abs (r * 2 ^ 1074 - v)) as a.
  generalize (Z.abs (signed (dneg x) n' * 2 ^ 1074 - v)) as b. intros b a p C Hp.
  destruct C as [C|[C|[C1 C2]]].
  - left. apply Z.mul_lt_mono_pos_l; assumption.
  - right. left. rewrite C. apply I.
  - right. right. split; [congruence|]. unfold signed. destruct (dneg x); [rewrite Z.even_opp|]; exact C2.
Qed.

Lemma float_shown : forall x, size_ok x -> float_text (to_string_double x) x.
Proof.
  intros x Hx. unfold to_string_double, show_fixed_mag. pose proof (dmag_range x Hx) as R.
  change (two63 <=? x) with (dneg x).
  destruct (dmag x =? inf_mag) eqn:E1; [apply Z.eqb_eq in E1|apply Z.eqb_neq in E1].
  - right. left. split; [unfold infinite; rewrite dmag_mod by exact Hx; exact E1|].
    change (2 ^ 63 <=? x) with (dneg x). destruct (dneg x); reflexivity.
  - destruct (inf_mag <? dmag x) eqn:E2; [apply Z.ltb_lt in E2|apply Z.ltb_ge in E2].
    + right. right. split; [|split].
      * intro F. pose proof (finite_mag x Hx F). lia.
      * unfold infinite. rewrite dmag_mod by exact Hx. exact E1.
      * change (2 ^ 63 <=? x) with (dneg x). destruct (dneg x); reflexivity.
    + left. assert (F : finite x) by (apply dmag_finite; [exact Hx|lia]). split; [exact F|].
      pose proof (fixed_closest x Hx F) as C. revert C.
      pose proof (mag_units_nonneg (dmag x) (proj1 R)) as Nn.
      assert (HT : 0 < 2 ^ 1074) by (apply Z.pow_pos_nonneg; lia).
      assert (N0 : 0 <= rne_div (mag_units (dmag x) * 1000000) (2 ^ 1074)) by (apply rne_div_nonneg; [exact HT|lia]).
      revert N0. generalize (rne_div (mag_units (dmag x) * 1000000) (2 ^ 1074)) as n. intros n N0 C.
      pose proof (Z.mod_pos_bound n 1000000 ltac:(lia)) as M.
      pose proof (Z.div_mod n 1000000 ltac:(lia)) as DM.
      assert (Q0 : 0 <= n / 1000000) by (apply Z.div_pos; lia).
      exists (show_nonneg (n / 1000000)), (chrs (six_digits (n mod 1000000))), (zlen (dec_digits (n / 1000000))),
        (n / 1000000), (n mod 1000000).
      split; [|split; [|split; [|split; [|split]]]].
      * pose proof (digits_chrs _ (dec_digits_digit _ Q0)) as D. rewrite dec_digits_val in D by exact Q0. exact D.
      * pose proof (dec_digits_nonnil (n / 1000000)). unfold zlen. destruct (dec_digits _); [congruence|]. cbn [List.length]. lia.
      * pose proof (digits_chrs _ (six_digits_digit _ M)) as D. rewrite six_digits_val in D. exact D.
      * intros t' k' D K. exact (dec_digits_min _ t' k' Q0 D K).
      * change (2 ^ 63 <=? x) with (dneg x). destruct (dneg x); reflexivity.
      * rewrite <- DM. exact C.
Qed.
