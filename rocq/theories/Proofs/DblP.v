(** Correctness of the double conversions: rounding, six-digit printing. *)

From Verif Require Import Model.Save Proofs.BytesP Proofs.RtBase.

Ltac Zify.zify_post_hook ::= idtac.

(** ** rne_div *)

Lemma rne_div_err : forall n d, 0 < d ->
  - d <= 2 * (rne_div n d * d - n) <= d.
Proof.
  intros n d Hd. unfold rne_div.
  pose proof (Z.div_mod n d ltac:(lia)) as E. pose proof (Z.mod_pos_bound n d Hd) as B.
  destruct (2 * (n mod d) <? d) eqn:E1; [apply Z.ltb_lt in E1; nia|].
  apply Z.ltb_ge in E1.
  destruct (d <? 2 * (n mod d)) eqn:E2; [apply Z.ltb_lt in E2; nia|].
  apply Z.ltb_ge in E2. destruct (Z.even (n / d)); nia.
Qed.

Lemma rne_div_unique : forall n d q, 0 < d -> - d < 2 * (q * d - n) < d -> rne_div n d = q.
Proof.
  intros n d q Hd H. pose proof (rne_div_err n d Hd) as E.
  assert (- d < (rne_div n d - q) * d < d) by nia. nia.
Qed.

Lemma rne_div_exact : forall q d, 0 < d -> rne_div (q * d) d = q.
Proof. intros q d Hd. apply rne_div_unique; lia. Qed.

Lemma rne_div_scale : forall k n d, 0 < k -> 0 < d -> rne_div (k * n) (k * d) = rne_div n d.
Proof.
  intros k n d Hk Hd. unfold rne_div.
  rewrite Z.div_mul_cancel_l by lia. rewrite Zmult_mod_distr_l.
  replace (2 * (k * (n mod d)) <? k * d) with (2 * (n mod d) <? d).
  2:{ destruct (2 * (n mod d) <? d) eqn:E; symmetry;
      [apply Z.ltb_lt in E; apply Z.ltb_lt; nia | apply Z.ltb_ge in E; apply Z.ltb_ge; nia]. }
  replace (k * d <? 2 * (k * (n mod d))) with (d <? 2 * (n mod d)).
  2:{ destruct (d <? 2 * (n mod d)) eqn:E; symmetry;
      [apply Z.ltb_lt in E; apply Z.ltb_lt; nia | apply Z.ltb_ge in E; apply Z.ltb_ge; nia]. }
  reflexivity.
Qed.

Lemma rne_div_lower : forall n d q, 0 < d -> q * d <= n -> q <= rne_div n d.
Proof.
  intros n d q Hd H. unfold rne_div.
  assert (q <= n / d) by (apply Z.div_le_lower_bound; lia).
  destruct (2 * (n mod d) <? d); [lia|]. destruct (d <? 2 * (n mod d)); [lia|].
  destruct (Z.even (n / d)); lia.
Qed.

Lemma rne_div_upper : forall n d q, 0 < d -> n <= q * d -> rne_div n d <= q.
Proof.
  intros n d q Hd H. pose proof (rne_div_err n d Hd) as E.
  destruct (Z.eq_dec n (q * d)) as [->|Hn]; [rewrite rne_div_exact; lia|].
  assert (n / d < q) by (apply Z.div_lt_upper_bound; lia).
  unfold rne_div.
  destruct (2 * (n mod d) <? d); [lia|]. destruct (d <? 2 * (n mod d)); [lia|].
  destruct (Z.even (n / d)); lia.
Qed.

Lemma rne_div_nonneg : forall n d, 0 < d -> 0 <= n -> 0 <= rne_div n d.
Proof. intros. apply rne_div_lower; lia. Qed.

Lemma rne_div_mono : forall n1 n2 d, 0 < d -> n1 <= n2 -> rne_div n1 d <= rne_div n2 d.
Proof.
  intros n1 n2 d Hd H. unfold rne_div.
  pose proof (Z.div_mod n1 d ltac:(lia)) as E1. pose proof (Z.mod_pos_bound n1 d Hd) as B1.
  pose proof (Z.div_mod n2 d ltac:(lia)) as E2. pose proof (Z.mod_pos_bound n2 d Hd) as B2.
  assert (Hq : n1 / d <= n2 / d) by (apply Z.div_le_mono; lia).
  destruct (Z.eq_dec (n1 / d) (n2 / d)) as [Q|Q].
  - rewrite <- Q in *. assert (n1 mod d <= n2 mod d) by nia.
    destruct (2 * (n1 mod d) <? d) eqn:A1; destruct (2 * (n2 mod d) <? d) eqn:A2;
    destruct (d <? 2 * (n1 mod d)) eqn:A3; destruct (d <? 2 * (n2 mod d)) eqn:A4;
    destruct (Z.even (n1 / d)); try lia;
    repeat match goal with
    | H : (_ <? _) = true |- _ => apply Z.ltb_lt in H
    | H : (_ <? _) = false |- _ => apply Z.ltb_ge in H
    end; lia.
  - destruct (2 * (n1 mod d) <? d); destruct (2 * (n2 mod d) <? d);
    destruct (d <? 2 * (n1 mod d)); destruct (d <? 2 * (n2 mod d));
    destruct (Z.even (n1 / d)); destruct (Z.even (n2 / d)); lia.
Qed.

(** ** mag_units *)

Lemma two52_eq : two52 = 2 ^ 52. Proof. reflexivity. Qed.
Lemma two53_eq : two53 = 2 * two52. Proof. reflexivity. Qed.
Lemma two52_pos : 0 < two52. Proof. reflexivity. Qed.

Lemma mag_units_compose : forall s q, 0 <= s -> 0 <= q <= two53 -> s = 0 \/ two52 <= q ->
  mag_units (s * two52 + q) = q * 2 ^ s.
Proof.
  intros s q Hs Hq Hc. unfold mag_units. pose proof two52_pos as P. rewrite two53_eq in Hq.
  remember two52 as t eqn:Et.
  assert (q < t \/ t <= q < 2 * t \/ q = 2 * t) as [C|[C|C]] by lia.
  - assert (s = 0) by lia. subst s. rewrite Z.mul_0_l, Z.add_0_l.
    rewrite Z.div_small, Z.mod_small by lia. cbn. lia.
  - replace (s * t + q) with ((q - t) + (s + 1) * t) by lia.
    rewrite Z.div_add, Z.mod_add by lia. rewrite Z.div_small, Z.mod_small by lia.
    rewrite Z.add_0_l. replace (s + 1 =? 0) with false by (symmetry; apply Z.eqb_neq; lia).
    replace (s + 1 - 1) with s by lia. f_equal. lia.
  - subst q. replace (s * t + 2 * t) with (0 + (s + 2) * t) by lia.
    rewrite Z.div_add, Z.mod_add by lia. rewrite Z.div_small, Z.mod_small by lia.
    rewrite Z.add_0_l. replace (s + 2 =? 0) with false by (symmetry; apply Z.eqb_neq; lia).
    replace (s + 2 - 1) with (s + 1) by lia. rewrite Z.pow_add_r by lia.
    change (2 ^ 1) with 2. lia.
Qed.

Lemma mag_units_decompose : forall a, 0 <= a ->
  exists s q, a = s * two52 + q /\ 0 <= s /\ 0 <= q < two53 /\ (s = 0 \/ two52 <= q) /\
              mag_units a = q * 2 ^ s.
Proof.
  intros a Ha. pose proof two52_pos as P.
  pose proof (Z.div_mod a two52 ltac:(lia)) as E. pose proof (Z.mod_pos_bound a two52 P) as B.
  assert (0 <= a / two52) by (apply Z.div_pos; lia).
  rewrite two53_eq.
  destruct (Z.eq_dec (a / two52) 0) as [H0|H0].
  - exists 0, (a mod two52). repeat split; try lia.
    unfold mag_units. rewrite H0. cbn. lia.
  - exists (a / two52 - 1), (two52 + a mod two52). repeat split; try lia.
    unfold mag_units. replace (a / two52 =? 0) with false by (symmetry; apply Z.eqb_neq; lia).
    reflexivity.
Qed.

Lemma mag_units_nonneg : forall a, 0 <= a -> 0 <= mag_units a.
Proof.
  intros a Ha. destruct (mag_units_decompose a Ha) as (s & q & -> & Hs & Hq & _ & ->).
  apply Z.mul_nonneg_nonneg; [lia|]. apply Z.pow_nonneg. lia.
Qed.

Lemma mag_units_pos : forall a, 0 < a -> 0 < mag_units a.
Proof.
  intros a Ha. destruct (mag_units_decompose a) as (s & q & -> & Hs & Hq & Hc & ->); [lia|].
  pose proof two52_pos. apply Z.mul_pos_pos; [|apply Z.pow_pos_nonneg; lia]. nia.
Qed.

(** Strictly increasing. *)
Lemma mag_units_step : forall a, 0 <= a -> mag_units a < mag_units (a + 1).
Proof.
  intros a Ha. destruct (mag_units_decompose a Ha) as (s & q & -> & Hs & Hq & Hc & E).
  rewrite E. rewrite <- Z.add_assoc. rewrite mag_units_compose by lia.
  assert (0 < 2 ^ s) by (apply Z.pow_pos_nonneg; lia). nia.
Qed.

Lemma mag_units_mono : forall a b, 0 <= a < b -> mag_units a < mag_units b.
Proof.
  intros a b [Ha Hb]. replace b with (a + (b - a)) by lia.
  assert (Hk : 0 < b - a) by lia. clear Hb. revert Hk.
  generalize (b - a). intros k Hk.
  pattern k. apply Z.lt_ind with (n := 0); [intros ? ? ->; tauto| | |exact Hk].
  - apply mag_units_step. exact Ha.
  - intros m Hm IH. replace (a + Z.succ m) with (a + m + 1) by lia.
    eapply Z.lt_trans; [exact IH|]. apply mag_units_step. lia.
Qed.

Lemma mag_units_inj : forall a b, 0 <= a -> 0 <= b -> mag_units a = mag_units b -> a = b.
Proof.
  intros a b Ha Hb E. destruct (Z.lt_trichotomy a b) as [H|[H|H]]; [|exact H|].
  - pose proof (mag_units_mono a b). lia.
  - pose proof (mag_units_mono b a). lia.
Qed.

(** ** Rounding a rational number of units N/d *)

Definition round_u (N d : Z) : Z :=
  let s := Z.max 0 (Z.log2 (N / d) - 52) in s * two52 + rne_div N (d * 2 ^ s).

Lemma round_pos_u : forall n d, round_pos n d = round_u (n * 2 ^ 1074) d.
Proof. reflexivity. Qed.

Lemma round_u_scale : forall k N d, 0 < k -> 0 < d -> round_u (k * N) (k * d) = round_u N d.
Proof.
  intros k N d Hk Hd. unfold round_u. rewrite Z.div_mul_cancel_l by lia.
  rewrite <- Z.mul_assoc. rewrite rne_div_scale; [reflexivity|lia|].
  apply Z.mul_pos_pos; [lia|]. apply Z.pow_pos_nonneg; lia.
Qed.

Lemma round_u_cross : forall N1 d1 N2 d2, 0 < d1 -> 0 < d2 -> N1 * d2 = N2 * d1 ->
  round_u N1 d1 = round_u N2 d2.
Proof.
  intros N1 d1 N2 d2 H1 H2 E.
  rewrite <- (round_u_scale d2 N1 d1) by assumption.
  rewrite <- (round_u_scale d1 N2 d2) by assumption.
  f_equal; lia.
Qed.

(** The shift and significand, and the bounds tying them to N/d. *)
Lemma round_u_parts : forall N d, 0 <= N -> 0 < d ->
  exists s q, round_u N d = s * two52 + q /\ 0 <= s /\ 0 <= q <= two53 /\
    (s = 0 \/ two52 <= q) /\ q = rne_div N (d * 2 ^ s) /\
    N < two53 * (d * 2 ^ s) /\ (s = 0 \/ two52 * (d * 2 ^ s) <= N).
Proof.
  intros N d HN Hd. unfold round_u.
  set (s := Z.max 0 (Z.log2 (N / d) - 52)). exists s, (rne_div N (d * 2 ^ s)).
  assert (Hs : 0 <= s) by (unfold s; lia).
  assert (Hp : 0 < 2 ^ s) by (apply Z.pow_pos_nonneg; lia).
  assert (HD : 0 < d * 2 ^ s) by nia.
  assert (Hq0 : 0 <= N / d) by (apply Z.div_pos; lia).
  assert (U : N < two53 * (d * 2 ^ s)).
  { assert (N / d < 2 ^ (53 + s)).
    { destruct (Z.eq_dec (N / d) 0) as [->|Hne]; [apply Z.pow_pos_nonneg; lia|].
      pose proof (Z.log2_spec (N / d) ltac:(lia)) as [_ L].
      eapply Z.lt_le_trans; [exact L|]. apply Z.pow_le_mono_r; [lia|]. unfold s. lia. }
    rewrite Z.pow_add_r in H by lia. change (2 ^ 53) with two53 in H.
    pose proof (Z.div_mod N d ltac:(lia)). pose proof (Z.mod_pos_bound N d Hd).
    assert (N / d + 1 <= two53 * 2 ^ s) by lia. nia. }
  assert (L : s = 0 \/ two52 * (d * 2 ^ s) <= N).
  { destruct (Z.eq_dec s 0) as [|Hne]; [left; assumption|right].
    assert (Es : s = Z.log2 (N / d) - 52) by lia.
    assert (0 < N / d).
    { destruct (Z.eq_dec (N / d) 0) as [E0|]; [|lia]. rewrite E0 in Es. cbn in Es. lia. }
    pose proof (Z.log2_spec (N / d) ltac:(lia)) as [L _].
    replace (Z.log2 (N / d)) with (52 + s) in L by lia.
    rewrite Z.pow_add_r in L by lia. change (2 ^ 52) with two52 in L.
    pose proof (Z.div_mod N d ltac:(lia)). pose proof (Z.mod_pos_bound N d Hd). nia. }
  repeat split; auto.
  - apply rne_div_nonneg; assumption.
  - apply rne_div_upper; lia.
  - destruct L as [L|L]; [left; exact L|right]. apply rne_div_lower; lia.
Qed.

(** Error of at most half an ulp, relative to the value when normal. *)
Lemma round_u_err : forall N d, 0 <= N -> 0 < d ->
  2 * Z.abs (mag_units (round_u N d) * d - N) <= d \/
  two53 * Z.abs (mag_units (round_u N d) * d - N) <= N.
Proof.
  intros N d HN Hd.
  destruct (round_u_parts N d HN Hd) as (s & q & -> & Hs & Hq & Hc & Eq & U & L).
  rewrite mag_units_compose by assumption.
  assert (Hp : 0 < 2 ^ s) by (apply Z.pow_pos_nonneg; lia).
  assert (HD : 0 < d * 2 ^ s) by nia.
  pose proof (rne_div_err N (d * 2 ^ s) HD) as E. rewrite <- Eq in E.
  replace (q * 2 ^ s * d) with (q * (d * 2 ^ s)) by lia.
  destruct L as [->|L].
  - left. rewrite Z.pow_0_r, Z.mul_1_r in *. lia.
  - right. rewrite two53_eq. pose proof two52_pos. nia.
Qed.

Lemma round_u_exact : forall a d, 0 <= a -> 0 < d -> round_u (mag_units a * d) d = a.
Proof.
  intros a d Ha Hd.
  destruct (mag_units_decompose a Ha) as (s & q & -> & Hs & Hq & Hc & E).
  rewrite E. unfold round_u. rewrite Z.div_mul by lia.
  assert (Hp : 0 < 2 ^ s) by (apply Z.pow_pos_nonneg; lia).
  assert (S : Z.max 0 (Z.log2 (q * 2 ^ s) - 52) = s).
  { destruct Hc as [->|Hc].
    - rewrite Z.pow_0_r, Z.mul_1_r.
      assert (Z.log2 q <= 52); [|lia].
      destruct (Z.eq_dec q 0) as [->|]; [cbn; lia|].
      assert (Z.log2 q < 53); [|lia]. apply Z.log2_lt_pow2; [lia|]. change (2 ^ 53) with two53. lia.
    - pose proof two52_pos. rewrite Z.log2_mul_pow2 by lia.
      replace (Z.log2 q) with 52; [lia|]. symmetry. apply Z.log2_unique; [lia|].
      change (2 ^ 52) with two52. change (2 ^ Z.succ 52) with two53. lia. }
  rewrite S. replace (q * 2 ^ s * d) with (q * (d * 2 ^ s)) by lia.
  rewrite rne_div_exact by nia. reflexivity.
Qed.

(** Monotone. *)
Lemma round_u_mono : forall N1 N2 d, 0 <= N1 <= N2 -> 0 < d -> round_u N1 d <= round_u N2 d.
Proof.
  intros N1 N2 d [H0 H12] Hd.
  unfold round_u.
  set (s1 := Z.max 0 (Z.log2 (N1 / d) - 52)). set (s2 := Z.max 0 (Z.log2 (N2 / d) - 52)).
  assert (Hs : s1 <= s2).
  { unfold s1, s2. assert (Z.log2 (N1 / d) <= Z.log2 (N2 / d)); [|lia].
    apply Z.log2_le_mono. apply Z.div_le_mono; lia. }
  destruct (Z.eq_dec s1 s2) as [E|E].
  - rewrite E. apply Z.add_le_mono_l. apply rne_div_mono; [|lia].
    apply Z.mul_pos_pos; [lia|]. apply Z.pow_pos_nonneg; unfold s2; lia.
  - destruct (round_u_parts N1 d H0 Hd) as (s & q & E1 & _ & Hq & _).
    unfold round_u in E1. fold s1 in E1.
    destruct (round_u_parts N2 d ltac:(lia) Hd) as (s' & q' & E2 & _ & Hq' & _).
    pose proof two52_pos.
    assert (HD1 : 0 < d * 2 ^ s1) by (apply Z.mul_pos_pos; [lia|apply Z.pow_pos_nonneg; unfold s1; lia]).
    assert (HD2 : 0 < d * 2 ^ s2) by (apply Z.mul_pos_pos; [lia|apply Z.pow_pos_nonneg; unfold s2; lia]).
    assert (A : rne_div N1 (d * 2 ^ s1) <= two53).
    { apply rne_div_upper; [exact HD1|].
      assert (N1 / d < 2 ^ (53 + s1)).
      { assert (0 <= N1 / d) by (apply Z.div_pos; lia).
        destruct (Z.eq_dec (N1 / d) 0) as [->|Hne]; [apply Z.pow_pos_nonneg; unfold s1; lia|].
        pose proof (Z.log2_spec (N1 / d) ltac:(lia)) as [_ L].
        eapply Z.lt_le_trans; [exact L|]. apply Z.pow_le_mono_r; [lia|]. unfold s1. lia. }
      rewrite Z.pow_add_r in H1 by (unfold s1; lia). change (2 ^ 53) with two53 in H1.
      pose proof (Z.div_mod N1 d ltac:(lia)). pose proof (Z.mod_pos_bound N1 d Hd). nia. }
    assert (B : two52 <= rne_div N2 (d * 2 ^ s2)).
    { apply rne_div_lower; [exact HD2|].
      assert (Es : s2 = Z.log2 (N2 / d) - 52) by lia.
      assert (0 < N2 / d).
      { assert (0 <= N2 / d) by (apply Z.div_pos; lia).
        destruct (Z.eq_dec (N2 / d) 0) as [E0|]; [|lia]. rewrite E0 in Es. cbn in Es. lia. }
      pose proof (Z.log2_spec (N2 / d) ltac:(lia)) as [L _].
      replace (Z.log2 (N2 / d)) with (52 + s2) in L by lia.
      rewrite Z.pow_add_r in L by lia. change (2 ^ 52) with two52 in L.
      pose proof (Z.div_mod N2 d ltac:(lia)). pose proof (Z.mod_pos_bound N2 d Hd). nia. }
    rewrite two53_eq in A. nia.
Qed.

Lemma round_u_nonneg : forall N d, 0 <= N -> 0 < d -> 0 <= round_u N d.
Proof.
  intros N d HN Hd. destruct (round_u_parts N d HN Hd) as (s & q & -> & Hs & Hq & _).
  pose proof two52_pos. nia.
Qed.

Lemma round_u_le : forall N d a, 0 <= N -> 0 < d -> 0 <= a -> N <= mag_units a * d -> round_u N d <= a.
Proof.
  intros N d a HN Hd Ha H. rewrite <- (round_u_exact a d Ha Hd).
  apply round_u_mono; [lia|exact Hd].
Qed.

Lemma round_u_ge : forall N d a, 0 <= N -> 0 < d -> 0 <= a -> mag_units a * d <= N -> a <= round_u N d.
Proof.
  intros N d a HN Hd Ha H. rewrite <- (round_u_exact a d Ha Hd).
  apply round_u_mono; [|exact Hd]. split; [|exact H].
  apply Z.mul_nonneg_nonneg; [apply mag_units_nonneg; exact Ha|lia].
Qed.
