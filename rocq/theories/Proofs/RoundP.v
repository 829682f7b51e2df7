(** The model's printing and parsing of doubles meets Spec/Rounding. *)

From Verif Require Import Model.Dbl Spec.Rounding Proofs.BytesP Proofs.DblP Proofs.DecP Proofs.ShowP
  Proofs.RtBase Proofs.RtStep.
From Coq Require Import Lqa.

Ltac Zify.zify_post_hook ::= idtac.

(** ** Integers: nearest multiples *)

(** No multiple of [d] is closer to [n] than the rounded quotient's. *)
Lemma rne_div_closest : forall n d q, 0 < d ->
  Z.abs (rne_div n d * d - n) < Z.abs (q * d - n) \/ rne_div n d = q \/
  Z.abs (rne_div n d * d - n) = Z.abs (q * d - n) /\ Z.even (rne_div n d) = true.
Proof.
  intros n d q Hd. unfold rne_div.
  pose proof (Z.div_mod n d ltac:(lia)) as E. pose proof (Z.mod_pos_bound n d Hd) as B.
  set (k := n / d) in *. set (r := n mod d) in *.
  assert (C : q = k \/ q = k + 1 \/ q < k \/ k + 1 < q) by lia.
  assert (G : q < k -> q * d <= k * d - d) by nia.
  assert (G' : k + 1 < q -> k * d + 2 * d <= q * d) by nia.
  assert (En : n = k * d + r) by lia. clear E.
  destruct (2 * r <? d) eqn:E1; [apply Z.ltb_lt in E1|apply Z.ltb_ge in E1].
  - destruct C as [->|[->|[C|C]]]; [right; left; reflexivity|left; lia|left; specialize (G C); lia|left; specialize (G' C); lia].
  - destruct (d <? 2 * r) eqn:E2; [apply Z.ltb_lt in E2|apply Z.ltb_ge in E2].
    + destruct C as [->|[->|[C|C]]]; [left; lia|right; left; reflexivity|left; specialize (G C); lia|left; specialize (G' C); lia].
    + assert (2 * r = d) by lia. destruct (Z.even k) eqn:EV.
      * destruct C as [->|[->|[C|C]]]; [right; left; reflexivity| |left; specialize (G C); lia|left; specialize (G' C); lia].
        right. right. split; [lia|exact EV].
      * assert (EV' : Z.even (k + 1) = true) by (rewrite Z.even_add, EV; reflexivity).
        destruct C as [->|[->|[C|C]]]; [|right; left; reflexivity|left; specialize (G C); lia|left; specialize (G' C); lia].
        right. right. split; [lia|exact EV'].
Qed.

Lemma even_two52 : forall s q, Z.even (s * two52 + q) = Z.even q.
Proof.
  intros. rewrite Z.even_add, Z.even_mul. change (Z.even two52) with true.
  rewrite orb_true_r. destruct (Z.even q); reflexivity.
Qed.

(** No magnitude is closer to N/d than the rounded one. *)
Lemma round_u_closest : forall N d a, 0 <= N -> 0 < d -> 0 <= a ->
  let b := round_u N d in
  Z.abs (mag_units b * d - N) < Z.abs (mag_units a * d - N) \/ b = a \/
  Z.abs (mag_units b * d - N) = Z.abs (mag_units a * d - N) /\ Z.even b = true.
Proof.
  intros N d a HN Hd Ha b. unfold b.
  destruct (round_u_parts N d HN Hd) as (s & q & E & Hs & Hq & Hc & Eq & UB & LB).
  rewrite E, mag_units_compose, even_two52 by assumption.
  assert (P : 0 < 2 ^ s) by (apply Z.pow_pos_nonneg; lia).
  assert (HdP : 0 < d * 2 ^ s) by nia.
  destruct (mag_units_decompose a Ha) as (s' & q' & Ea & Hs' & Hq' & Hc' & Em). rewrite Em.
  destruct (Z_lt_le_dec s' s) as [L|L].
  - (* a finer grid, below N *)
    left. destruct LB as [LB|LB]; [lia|].
    assert (S1 : q' * 2 ^ s' < two52 * 2 ^ s).
    { assert (P' : 0 < 2 ^ s') by (apply Z.pow_pos_nonneg; lia).
      assert (S0 : 2 ^ (s' + 1) <= 2 ^ s) by (apply Z.pow_le_mono_r; lia).
      rewrite Z.pow_add_r in S0 by lia. change (2 ^ 1) with 2 in S0.
      rewrite two53_eq in Hq'. pose proof two52_pos as P52.
      apply Z.lt_le_trans with (2 * two52 * 2 ^ s'); [apply Z.mul_lt_mono_pos_r; lia|].
      replace (2 * two52 * 2 ^ s') with (two52 * (2 ^ s' * 2)) by lia.
      apply Z.mul_le_mono_nonneg_l; lia. }
    assert (S2 : q' * 2 ^ s' * d < two52 * (d * 2 ^ s)).
    { replace (two52 * (d * 2 ^ s)) with (two52 * 2 ^ s * d) by lia. apply Z.mul_lt_mono_pos_r; assumption. }
    replace (q * 2 ^ s * d) with (q * (d * 2 ^ s)) by lia.
    destruct (rne_div_closest N (d * 2 ^ s) two52 HdP) as [C|[C|[C _]]]; rewrite <- Eq in C; [lia| |lia].
    rewrite C. lia.
  - assert (EG : q' * 2 ^ s' = (q' * 2 ^ (s' - s)) * 2 ^ s).
    { rewrite <- Z.mul_assoc, <- Z.pow_add_r by lia. f_equal. f_equal. lia. }
    rewrite EG.
    destruct (rne_div_closest N (d * 2 ^ s) (q' * 2 ^ (s' - s)) HdP) as [C|[C|[C C']]]; rewrite <- Eq in C.
    + left. replace (q * 2 ^ s * d) with (q * (d * 2 ^ s)) by lia.
      replace (q' * 2 ^ (s' - s) * 2 ^ s * d) with (q' * 2 ^ (s' - s) * (d * 2 ^ s)) by lia. exact C.
    + right. left. rewrite <- E. apply mag_units_inj; [apply round_u_nonneg; assumption|exact Ha|].
      rewrite Em, EG, <- C, E. apply mag_units_compose; assumption.
    + right. right. rewrite <- Eq in C'. split; [|exact C'].
      replace (q * 2 ^ s * d) with (q * (d * 2 ^ s)) by lia.
      replace (q' * 2 ^ (s' - s) * 2 ^ s * d) with (q' * 2 ^ (s' - s) * (d * 2 ^ s)) by lia. exact C.
Qed.

(** ** Rationals over the common denominator *)

Definition TP : positive := Z.to_pos (2 ^ 1074 * P400).
Definition frac (a : Z) : Q := (a # TP).

Lemma frac_lt : forall a b, (frac a < frac b)%Q <-> a < b.
Proof. intros. unfold frac, Qlt. cbn [Qnum Qden]. nia. Qed.

Lemma frac_le : forall a b, (frac a <= frac b)%Q <-> a <= b.
Proof. intros. unfold frac, Qle. cbn [Qnum Qden]. nia. Qed.

Lemma frac_eq : forall a b, (frac a == frac b)%Q <-> a = b.
Proof. intros. unfold frac, Qeq. cbn [Qnum Qden]. nia. Qed.

Lemma frac_dist : forall a b, (Qabs (frac a - frac b) == frac (Z.abs (a - b)))%Q.
Proof.
  intros. unfold frac.
  assert (E : ((a # TP) - (b # TP) == (a - b # TP))%Q).
  { unfold Qminus, Qplus, Qopp, Qeq. cbn [Qnum Qden]. rewrite Pos2Z.inj_mul. ring. }
  rewrite E. reflexivity.
Qed.

Lemma frac_mul : forall k a, (inject_Z k * frac a == frac (k * a))%Q.
Proof. intros. unfold frac, inject_Z, Qmult, Qeq. cbn [Qnum Qden]. rewrite Pos.mul_1_l. reflexivity. Qed.

Lemma TP_eq : Z.pos TP = 2 ^ 1074 * P400.
Proof. unfold TP. apply Z2Pos.id. reflexivity. Qed.

Lemma ten_pow : forall k, 0 <= k -> ((10 # 1) ^ k == inject_Z (10 ^ k))%Q.
Proof. intros k Hk. rewrite Zpower_Qpower by exact Hk. reflexivity. Qed.

Lemma decimal_frac : forall d k, -400 <= k -> (decimal d k == frac (d * U k))%Q.
Proof.
  intros d k Hk. unfold decimal.
  assert (T0 : ~ ((10 # 1) == 0)%Q) by discriminate.
  assert (E : ((10 # 1) ^ k == inject_Z (10 ^ (k + 400)) / inject_Z P400)%Q).
  { unfold P400. rewrite <- !ten_pow by lia. rewrite <- Qpower_minus by exact T0.
    replace (k + 400 - 400) with k by lia. reflexivity. }
  rewrite E. unfold frac, U.
  assert (HP : ~ (inject_Z P400 == 0)%Q).
  { unfold Qeq, inject_Z. cbn [Qnum Qden]. pose proof P400_pos. lia. }
  apply (Qmult_inj_r _ _ (inject_Z P400) HP).
  assert (E1 : (inject_Z d * (inject_Z (10 ^ (k + 400)) / inject_Z P400) * inject_Z P400 ==
                inject_Z d * inject_Z (10 ^ (k + 400)))%Q) by (field; exact HP).
  rewrite E1. unfold Qeq, Qmult, inject_Z. cbn [Qnum Qden].
  rewrite !Pos.mul_1_r, TP_eq. ring.
Qed.

Lemma pow63 : 2 ^ 63 = two63. Proof. reflexivity. Qed.

Lemma finite_mag : forall x, size_ok x -> finite x -> 0 <= dmag x < inf_mag.
Proof.
  intros x Hx Hf. pose proof (dmag_range x Hx). split; [lia|].
  apply Z.ltb_lt. exact (finite_is_finite x Hx Hf).
Qed.

(** The specification's value is the model's number of units. *)
Lemma dval_frac : forall x, size_ok x -> finite x ->
  (dval x == frac ((if dneg x then - mag_units (dmag x) else mag_units (dmag x)) * P400))%Q.
Proof.
  intros x Hx Hf. unfold dval, mag_units. pose proof (finite_mag x Hx Hf) as HM.
  change (2 ^ 63 <=? x) with (dneg x).
  assert (E1 : (x / 2 ^ 52) mod 2 ^ 11 = dmag x / two52 /\ x mod 2 ^ 52 = dmag x mod two52).
  { unfold dmag in *. change (two63 <=? x) with (dneg x) in *. destruct (dneg x) eqn:EN.
    - assert (Ex : x = (x - two63) + 2048 * two52) by (unfold two63, two52; lia).
      set (y := x - two63) in *. rewrite Ex. change (2 ^ 52) with two52.
      rewrite Z.div_add, Z.mod_add by discriminate. split; [|reflexivity].
      change 2048 with (1 * 2 ^ 11). rewrite Z.mod_add by discriminate. apply Z.mod_small.
      split; [apply Z.div_pos; [lia|reflexivity]|]. apply Z.div_lt_upper_bound; [reflexivity|].
      unfold inf_mag, two52 in *. lia.
    - change (2 ^ 52) with two52. split; [|reflexivity]. apply Z.mod_small.
      split; [apply Z.div_pos; [lia|reflexivity]|]. apply Z.div_lt_upper_bound; [reflexivity|].
      unfold inf_mag, two52 in *. lia. }
  destruct E1 as [-> ->]. change (2 ^ 52) with two52.
  set (a := if dmag x / two52 =? 0 then dmag x mod two52 else _).
  unfold frac, Qeq. cbn [Qnum Qden]. rewrite TP_eq.
  rewrite Z2Pos.id by reflexivity. ring.
Qed.

(** ** The closest double *)

Definition sgn (n : bool) (a : Z) : Z := if n then - a else a.

Lemma closest_double_mag : forall n D X, 0 <= D -> -395 <= X -> dec_round D X < inf_mag ->
  closest_double (decimal (sgn n D) (X - 5)) (mk_dbl n (dec_round D X)).
Proof.
  intros n D X HD HX Hf. pose proof (U_pos (X - 5) ltac:(lia)) as HU.
  assert (HR : 0 <= dec_round D X) by (apply round_u_nonneg; [nia|reflexivity]).
  set (b := dec_round D X) in *.
  assert (Hn : dneg (mk_dbl n b) = n) by (apply dneg_mk; lia).
  assert (Hm : dmag (mk_dbl n b) = b) by (apply dmag_mk; lia).
  assert (Hs : size_ok (mk_dbl n b)).
  { unfold size_ok, mk_dbl, two64, two63, inf_mag in *. destruct n; lia. }
  assert (Hfi : finite (mk_dbl n b)).
  { apply is_finite_finite; [exact Hs|]. unfold is_finite. rewrite Hm. apply Z.ltb_lt. exact Hf. }
  split; [exact Hs|]. split; [exact Hfi|]. intros z Hz Hzf.
  rewrite !(dval_frac _ Hz Hzf), !(dval_frac _ Hs Hfi), !decimal_frac by lia.
  rewrite !frac_dist, Hn, Hm. rewrite frac_lt, !frac_eq.
  assert (Hev : Z.even (mk_dbl n b) = Z.even b).
  { unfold mk_dbl. destruct n; [|reflexivity]. rewrite Z.even_add. change (Z.even two63) with true.
    destruct (Z.even b); reflexivity. }
  rewrite Hev. pose proof (finite_mag z Hz Hzf) as Hzm.
  pose proof (round_u_closest (D * U (X - 5)) P400 (dmag z) ltac:(nia) P400_pos ltac:(lia)) as C.
  cbv zeta in C. change (round_u (D * U (X - 5)) P400) with b in C.
  pose proof (mag_units_nonneg (dmag z) ltac:(lia)) as Hu.
  set (A := mag_units b * P400) in *. set (N := D * U (X - 5)) in *.
  assert (HuP : 0 <= mag_units (dmag z) * P400) by (pose proof P400_pos; nia).
  assert (HbP : 0 <= A) by (unfold A; pose proof (mag_units_nonneg b HR); pose proof P400_pos; nia).
  assert (HN : 0 <= N) by (unfold N; nia).
  replace ((if n then - mag_units b else mag_units b) * P400) with (sgn n A) by (unfold sgn, A; destruct n; ring).
  replace ((if dneg z then - mag_units (dmag z) else mag_units (dmag z)) * P400)
    with (sgn (dneg z) (mag_units (dmag z) * P400)) by (unfold sgn; destruct (dneg z); ring).
  replace (sgn n D * U (X - 5)) with (sgn n N) by (unfold sgn, N; destruct n; ring).
  set (Zu := mag_units (dmag z) * P400) in *.
  assert (C' : Z.abs (A - N) < Z.abs (Zu - N) \/ A = Zu \/ Z.abs (A - N) = Z.abs (Zu - N) /\ Z.even b = true).
  { destruct C as [C|[C|C]]; [left; exact C| |right; right; exact C].
    right. left. unfold A, Zu. rewrite C. reflexivity. }
  (* the opposite sign is never closer than zero *)
  pose proof (round_u_closest (D * U (X - 5)) P400 0 ltac:(nia) P400_pos ltac:(lia)) as C0.
  cbv zeta in C0. change (round_u (D * U (X - 5)) P400) with b in C0. fold N A in C0.
  change (mag_units 0) with 0 in C0. rewrite Z.mul_0_l in C0.
  assert (C0' : Z.abs (A - N) < Z.abs (0 - N) \/ A = 0 \/ Z.abs (A - N) = Z.abs (0 - N) /\ Z.even b = true).
  { destruct C0 as [C0|[C0|C0]]; [left; exact C0| |right; right; exact C0].
    right. left. unfold A. rewrite C0. reflexivity. }
  clear C C0. clearbody A Zu N.
  unfold sgn. destruct n, (dneg z).
  - destruct C' as [C'|[C'|[C' C'']]]; [left; lia|right; left; lia|right; right; split; [lia|exact C'']].
  - destruct (Z.eq_dec Zu 0) as [->|Hz0].
    + destruct C0' as [C0'|[C0'|[C0' C'']]]; [left; lia|right; left; lia|right; right; split; [lia|exact C'']].
    + destruct C0' as [C0'|[C0'|[C0' C'']]]; left; lia.
  - destruct (Z.eq_dec Zu 0) as [->|Hz0].
    + destruct C0' as [C0'|[C0'|[C0' C'']]]; [left; lia|right; left; lia|right; right; split; [lia|exact C'']].
    + destruct C0' as [C0'|[C0'|[C0' C'']]]; left; lia.
  - destruct C' as [C'|[C'|[C' C'']]]; [left; lia|right; left; lia|right; right; split; [lia|exact C'']].
Qed.

(** ** The closest six-digit decimal *)

Lemma ten_pow_pos : forall k, (0 < (10 # 1) ^ k)%Q.
Proof. intro k. apply Qpower_0_lt. reflexivity. Qed.

Lemma small_decimal : forall d k X, Z.abs d < 10 ^ 6 -> k + 6 <= X ->
  (decimal d k < (10 # 1) ^ X)%Q.
Proof.
  intros d k X Hd HX. unfold decimal.
  assert (T0 : ~ ((10 # 1) == 0)%Q) by discriminate.
  assert (E : ((10 # 1) ^ X == inject_Z (10 ^ (X - k)) * (10 # 1) ^ k)%Q).
  { rewrite <- ten_pow by lia. rewrite <- Qpower_plus by exact T0.
    replace (X - k + k) with X by lia. reflexivity. }
  rewrite E. apply Qmult_lt_r; [apply ten_pow_pos|]. rewrite <- Zlt_Qlt.
  assert (10 ^ 6 <= 10 ^ (X - k)) by (apply Z.pow_le_mono_r; lia). lia.
Qed.

Lemma small_frac : forall d k X, Z.abs d < 10 ^ 6 -> k + 6 <= X -> -400 <= X ->
  (decimal d k < frac (U X))%Q.
Proof.
  intros d k X Hd Hk HX.
  assert (E1 : ((10 # 1) ^ X == frac (U X))%Q).
  { transitivity (decimal 1 X); [unfold decimal; ring|]. rewrite decimal_frac by lia.
    rewrite Z.mul_1_l. reflexivity. }
  rewrite <- E1. apply small_decimal; assumption.
Qed.

Lemma closest_six_pos : forall u D X, in_range u -> sci6 u = (D, X) ->
  forall d' k', Z.abs d' < 10 ^ 6 ->
    (Qabs (decimal D (X - 5) - frac (u * P400)) < Qabs (decimal d' k' - frac (u * P400)))%Q \/
    (decimal D (X - 5) == decimal d' k')%Q \/
    (Qabs (decimal D (X - 5) - frac (u * P400)) == Qabs (decimal d' k' - frac (u * P400)))%Q /\ Z.even D = true.
Proof.
  intros u D X Hu E d' k' Hd'.
  destruct (dec_exp_spec u Hu) as (A & B & C). pose proof (dec_exp_range u Hu) as R.
  set (X0 := dec_exp u) in *.
  set (D0 := rne_div (u * P400) (U (X0 - 5))).
  assert (E5 : U X0 = 100000 * U (X0 - 5)).
  { replace X0 with (X0 - 5 + 5) at 1 by lia. rewrite U_add by lia. reflexivity. }
  pose proof (U_pos (X0 - 5) ltac:(lia)) as HT.
  (* the printed decimal is the multiple of the last place *)
  assert (V : (decimal D (X - 5) == frac (D0 * U (X0 - 5)))%Q /\ (Z.even D0 = true -> Z.even D = true)).
  { rewrite sci6_unfold in E. cbv zeta in E. fold X0 D0 in E.
    destruct (D0 =? 1000000) eqn:E0; injection E as <- <-.
    - apply Z.eqb_eq in E0. split; [|intros _; reflexivity].
      rewrite decimal_frac by lia. apply frac_eq. rewrite E0.
      replace (X0 + 1 - 5) with (X0 - 5 + 1) by lia. rewrite U_succ by lia. lia.
    - split; [|intro H; exact H]. apply decimal_frac. lia. }
  destruct V as [V VE]. rewrite V, !frac_dist.
  destruct (Z_lt_le_dec k' (X0 - 5)) as [L|L].
  - left.
    assert (S1 : (decimal d' k' < frac (U X0))%Q).
    { apply small_frac; [exact Hd'|lia|lia]. }
    assert (S2 : Z.abs (D0 * U (X0 - 5) - u * P400) <= u * P400 - U X0).
    { destruct (rne_div_closest (u * P400) (U (X0 - 5)) 100000 HT) as [Q|[Q|[Q _]]]; fold D0 in Q; rewrite ?Q, E5 in *; lia. }
    apply Qle_lt_trans with (frac (u * P400 - U X0)); [apply frac_le; exact S2|].
    assert (E2 : (frac (u * P400 - U X0) == frac (u * P400) - frac (U X0))%Q).
    { unfold frac, Qminus, Qplus, Qopp, Qeq. cbn [Qnum Qden]. rewrite Pos2Z.inj_mul. ring. }
    rewrite E2.
    assert (frac (U X0) <= frac (u * P400))%Q by (apply frac_le; lia).
    apply Qlt_le_trans with (- (decimal d' k' - frac (u * P400)))%Q; [lra|].
    rewrite <- Qabs_opp. apply Qle_Qabs.
  - rewrite decimal_frac by lia. rewrite frac_dist, frac_lt, !frac_eq.
    assert (EU : d' * U k' = (d' * 10 ^ (k' - (X0 - 5))) * U (X0 - 5)).
    { replace k' with (X0 - 5 + (k' - (X0 - 5))) at 1 by lia. rewrite U_add by lia. ring. }
    rewrite EU.
    destruct (rne_div_closest (u * P400) (U (X0 - 5)) (d' * 10 ^ (k' - (X0 - 5))) HT) as [Q|[Q|[Q Q']]]; fold D0 in Q.
    + left. exact Q.
    + right. left. rewrite Q. reflexivity.
    + right. right. split; [exact Q|apply VE; exact Q'].
Qed.

Lemma decimal_opp : forall d k, (decimal (- d) k == - decimal d k)%Q.
Proof. intros. unfold decimal. rewrite inject_Z_opp. ring. Qed.

Lemma frac_opp : forall a, (frac (- a) == - frac a)%Q.
Proof. intros. reflexivity. Qed.

Lemma opp_dist : forall a b : Q, (Qabs (- a - - b) == Qabs (a - b))%Q.
Proof. intros. rewrite <- Qabs_opp. apply Qabs_wd. ring. Qed.

(** Printing with six digits and reading back. *)
Theorem ascii_round_six : forall x, size_ok x -> finite x -> six_digits_of x (ascii_round x).
Proof.
  intros x Hx Hf. pose proof (finite_is_finite x Hx Hf) as Hif. split.
  - exact (ascii_round_dneg x Hx Hif).
  - pose proof (finite_mag x Hx Hf) as HM. unfold ascii_round, ascii_mag.
    destruct (dmag x =? 0) eqn:E0.
    + apply Z.eqb_eq in E0. exists 0, 0.
      assert (Z0 : (dval x == 0)%Q).
      { rewrite (dval_frac x Hx Hf), E0. change (mag_units 0) with 0. destruct (dneg x); reflexivity. }
      split.
      * split; [left; reflexivity|]. intros d' k' _.
        assert (E1 : (decimal 0 0 == 0)%Q) by reflexivity. rewrite E1, Z0.
        destruct (Qeq_dec (decimal d' k') 0) as [Q|Q]; [right; left; rewrite Q; reflexivity|].
        left. change (Qabs (0 - 0)) with 0%Q.
        assert (E2 : (decimal d' k' - 0 == decimal d' k')%Q) by ring. rewrite E2.
        destruct (Qlt_le_dec 0 (Qabs (decimal d' k'))) as [G|G]; [exact G|].
        exfalso. apply Q. pose proof (Qabs_nonneg (decimal d' k')) as G'.
        pose proof (Qabs_Qle_condition (decimal d' k') 0) as [H _]. specialize (H G). lra.
      * assert (ED : dec_round 0 5 = 0) by reflexivity.
        pose proof (closest_double_mag false 0 5 ltac:(lia) ltac:(lia)) as G. rewrite ED in G.
        specialize (G ltac:(unfold inf_mag; lia)).
        pose proof (closest_double_mag true 0 5 ltac:(lia) ltac:(lia)) as G'. rewrite ED in G'.
        specialize (G' ltac:(unfold inf_mag; lia)).
        destruct (dneg x); assumption.
    + apply Z.eqb_neq in E0. destruct (sci6 (mag_units (dmag x))) as [D X] eqn:ES.
      pose proof (mag_units_range (dmag x) ltac:(lia)) as HR.
      pose proof (sci6_spec _ _ _ HR ES) as (HD & HX & _).
      pose proof (dec_round_finite (dmag x) D X ltac:(lia) ES) as HF.
      exists (sgn (dneg x) D), (X - 5). split.
      * split.
        { right. unfold sgn. destruct (dneg x); change (10 ^ 5) with 100000; change (10 ^ 6) with 1000000; lia. }
        intros d' k' Hd'. rewrite (dval_frac x Hx Hf).
        destruct (dneg x); cbn [sgn].
        -- pose proof (closest_six_pos _ _ _ HR ES (- d') k' ltac:(lia)) as C.
           assert (EV : Z.even (- D) = Z.even D) by (destruct D; reflexivity). rewrite EV.
           assert (Ed : (decimal d' k' == - decimal (- d') k')%Q) by (rewrite decimal_opp; ring).
           rewrite Z.mul_opp_l, frac_opp, decimal_opp, Ed, !opp_dist.
           destruct C as [C|[C|C]]; [left; exact C|right; left; rewrite C; reflexivity|right; right; exact C].
        -- exact (closest_six_pos _ _ _ HR ES d' k' Hd').
      * apply closest_double_mag; lia.
Qed.

(** ** The specification determines the result *)

Lemma dval_inj : forall x y, size_ok x -> finite x -> size_ok y -> finite y ->
  dneg x = dneg y -> (dval x == dval y)%Q -> x = y.
Proof.
  intros x y Hx Hfx Hy Hfy Hn E. rewrite (dval_frac x Hx Hfx), (dval_frac y Hy Hfy), frac_eq, Hn in E.
  pose proof (finite_mag x Hx Hfx). pose proof (finite_mag y Hy Hfy). pose proof P400_pos as HP.
  assert (EM : mag_units (dmag x) = mag_units (dmag y)).
  { destruct (dneg y); apply (Z.mul_reg_r _ _ P400) in E; lia. }
  apply mag_units_inj in EM; [|lia|lia].
  rewrite <- (mk_dbl_eta x), <- (mk_dbl_eta y), Hn, EM. reflexivity.
Qed.

Lemma even_dmag : forall x, Z.even (dmag x) = Z.even x.
Proof.
  intro x. unfold dmag. destruct (two63 <=? x); [|reflexivity].
  rewrite Z.even_sub. change (Z.even two63) with true. destruct (Z.even x); reflexivity.
Qed.

Lemma closest_double_unique : forall q x y, closest_double q x -> closest_double q y ->
  dneg x = dneg y -> x = y.
Proof.
  assert (W : forall q x y, closest_double q x -> closest_double q y -> dneg x = dneg y ->
    dmag x < dmag y -> Z.even x = true -> Z.even y = true ->
    (Qabs (dval x - q) == Qabs (dval y - q))%Q -> False).
  { intros q x y (Hx & Hfx & Cx) (Hy & Hfy & Cy) Hn L Ex Ey E.
    rewrite <- even_dmag in Ex, Ey.
    pose proof (finite_mag x Hx Hfx) as Mx. pose proof (finite_mag y Hy Hfy) as My.
    set (b := dmag x + 1).
    assert (Hb : b < dmag y).
    { unfold b. destruct (Z.eq_dec (dmag x + 1) (dmag y)) as [Q|Q]; [|lia].
      rewrite <- Q, Z.even_add, Ex in Ey. discriminate. }
    set (z := mk_dbl (dneg x) b).
    assert (Nz : dneg z = dneg x) by (apply dneg_mk; lia).
    assert (Mz : dmag z = b) by (apply dmag_mk; lia).
    assert (Hz : size_ok z) by (unfold z, size_ok, mk_dbl, two64, two63, inf_mag in *; destruct (dneg x); lia).
    assert (Hfz : finite z).
    { apply is_finite_finite; [exact Hz|]. unfold is_finite. rewrite Mz. apply Z.ltb_lt. lia. }
    assert (U1 : mag_units (dmag x) < mag_units b) by (apply mag_units_mono; unfold b; lia).
    assert (U2 : mag_units b < mag_units (dmag y)) by (apply mag_units_mono; unfold b in *; lia).
    assert (V : (dval x < dval z /\ dval z < dval y \/ dval y < dval z /\ dval z < dval x)%Q).
    { rewrite (dval_frac x Hx Hfx), (dval_frac y Hy Hfy), (dval_frac z Hz Hfz), !frac_lt, Nz, <- Hn, Mz.
      pose proof P400_pos. destruct (dneg x); [right|left]; nia. }
    specialize (Cx z Hz Hfz). specialize (Cy z Hz Hfz).
    revert E Cx Cy. generalize (dval x) (dval y) (dval z) V. clear. intros a b z V E Cx Cy.
    revert E Cx Cy.
    apply (Qabs_case (a - q)); apply (Qabs_case (b - q)); apply (Qabs_case (z - q)); intros;
      destruct V as [[V1 V2]|[V1 V2]]; destruct Cx as [Cx|[Cx|[Cx _]]]; destruct Cy as [Cy|[Cy|[Cy _]]]; lra. }
  intros q x y Cx Cy Hn.
  pose proof Cx as (Hx & Hfx & Cx'). pose proof Cy as (Hy & Hfy & Cy').
  specialize (Cx' y Hy Hfy). specialize (Cy' x Hx Hfx).
  destruct Cx' as [Q|[Q|[Q1 Q2]]].
  - destruct Cy' as [Q'|[Q'|[Q1' Q2']]].
    + exfalso. lra.
    + apply dval_inj; auto. symmetry. exact Q'.
    + exfalso. lra.
  - apply dval_inj; auto.
  - destruct Cy' as [Q'|[Q'|[Q1' Q2']]].
    + exfalso. lra.
    + apply dval_inj; auto. symmetry. exact Q'.
    + destruct (Z.lt_trichotomy (dmag x) (dmag y)) as [L|[L|L]].
      * exfalso. eapply W; [exact Cx|exact Cy| | | | |]; eassumption.
      * rewrite <- (mk_dbl_eta x), <- (mk_dbl_eta y), Hn, L. reflexivity.
      * exfalso. eapply W; [exact Cy|exact Cx|symmetry; exact Hn|exact L|exact Q2'|exact Q2|exact Q1'].
Qed.

(** ** Consequences *)

Lemma Qabs_zero : forall q : Q, (Qabs q <= 0)%Q -> (q == 0)%Q.
Proof. intros q H. pose proof (Qabs_Qle_condition q 0) as [G _]. specialize (G H). lra. Qed.

(** A double that is a six-digit decimal comes back unchanged. *)
Theorem six_digits_exact : forall x y d k, size_ok x -> finite x -> six_digits_of x y ->
  Z.abs d < 10 ^ 6 -> (dval x == decimal d k)%Q -> y = x.
Proof.
  intros x y d k Hx Hf (Hn & d1 & k1 & (_ & C6) & CD) Hd E.
  assert (Z0 : (Qabs (decimal d k - dval x) == 0)%Q).
  { assert (Q : (decimal d k - dval x == 0)%Q) by (rewrite E; ring). rewrite Q. reflexivity. }
  assert (E1 : (decimal d1 k1 == dval x)%Q).
  { specialize (C6 d k Hd). rewrite Z0 in C6. pose proof (Qabs_nonneg (decimal d1 k1 - dval x)) as G.
    destruct C6 as [C|[C|[C _]]].
    - exfalso. lra.
    - rewrite C, E. reflexivity.
    - assert (Q : (decimal d1 k1 - dval x == 0)%Q) by (apply Qabs_zero; lra). lra. }
  destruct CD as (Hy & Hfy & CD). specialize (CD x Hx Hf). rewrite E1 in CD.
  assert (Z1 : (Qabs (dval x - dval x) == 0)%Q).
  { assert (Q : (dval x - dval x == 0)%Q) by ring. rewrite Q. reflexivity. }
  rewrite Z1 in CD. pose proof (Qabs_nonneg (dval y - dval x)) as G.
  apply dval_inj; auto. destruct CD as [C|[C|[C _]]].
  - exfalso. lra.
  - exact C.
  - assert (Q : (dval y - dval x == 0)%Q) by (apply Qabs_zero; lra). lra.
Qed.

Lemma normal_mag : forall x, size_ok x -> finite x -> normal x -> two52 <= dmag x.
Proof.
  intros x Hx Hf Hn. pose proof (finite_mag x Hx Hf) as HM. unfold normal in Hn.
  destruct (Z_lt_le_dec (dmag x) two52) as [L|L]; [|exact L]. exfalso. apply Hn.
  unfold dmag in *. destruct (two63 <=? x) eqn:EN.
  - assert (Ex : x = (x - two63) + 2048 * two52) by (unfold two63, two52; lia).
    set (y := x - two63) in *. rewrite Ex. change (2 ^ 52) with two52.
    rewrite Z.div_add by discriminate. rewrite Z.div_small by lia. reflexivity.
  - change (2 ^ 52) with two52. rewrite Z.div_small by lia. reflexivity.
Qed.

Lemma normalise : forall d, 0 < d < 10 ^ 6 -> exists j, 0 <= j /\ 100000 <= d * 10 ^ j <= 999999.
Proof.
  intros d H. change (10 ^ 6) with 1000000 in H.
  destruct (Z_lt_le_dec d 10); [exists 5; change (10 ^ 5) with 100000; lia|].
  destruct (Z_lt_le_dec d 100); [exists 4; change (10 ^ 4) with 10000; lia|].
  destruct (Z_lt_le_dec d 1000); [exists 3; change (10 ^ 3) with 1000; lia|].
  destruct (Z_lt_le_dec d 10000); [exists 2; change (10 ^ 2) with 100; lia|].
  destruct (Z_lt_le_dec d 100000); [exists 1; change (10 ^ 1) with 10; lia|].
  exists 0. change (10 ^ 0) with 1. lia.
Qed.

Lemma decimal_shift : forall d k j, 0 <= j -> (decimal d k == decimal (d * 10 ^ j) (k - j))%Q.
Proof.
  intros d k j Hj. unfold decimal. rewrite inject_Z_mult, <- ten_pow by exact Hj.
  rewrite <- Qmult_assoc, <- Qpower_plus by discriminate. replace (j + (k - j)) with k by lia. reflexivity.
Qed.

(** A normal double that is the closest one to a six-digit decimal comes back unchanged. *)
Theorem six_digits_nearest : forall x d k, Z.abs d < 10 ^ 6 ->
  closest_double (decimal d k) x -> normal x -> (Qabs (decimal d k) <= dval dbl_max)%Q ->
  ascii_round x = x.
Proof.
  intros x d k Hd C Hnm Hmax. pose proof C as (Hx & Hf & C').
  pose proof (normal_mag x Hx Hf Hnm) as HM. pose proof (finite_mag x Hx Hf) as HMf.
  pose proof P400_pos as HP.
  assert (Mx : two52 <= mag_units (dmag x)).
  { change two52 with (mag_units two52) at 1.
    destruct (Z.eq_dec (dmag x) two52) as [->|]; [lia|]. apply Z.lt_le_incl. apply mag_units_mono.
    pose proof two52_pos. lia. }
  (* the decimal is at least half of x, hence not zero and not too small *)
  assert (H0 : (Qabs (dval x - decimal d k) <= Qabs (decimal d k))%Q).
  { destruct (C' 0 ltac:(unfold size_ok, two64; lia) ltac:(discriminate)) as [Q|[Q|[Q _]]];
      assert (E0 : (dval 0%Z == 0)%Q) by reflexivity; rewrite E0 in Q.
    - apply Qlt_le_weak. assert (E1 : (Qabs (0 - decimal d k) == Qabs (decimal d k))%Q).
      { rewrite <- Qabs_opp. apply Qabs_wd. ring. } rewrite E1 in Q. exact Q.
    - rewrite Q. assert (E1 : (Qabs (0 - decimal d k) == Qabs (decimal d k))%Q).
      { rewrite <- Qabs_opp. apply Qabs_wd. ring. } rewrite E1. apply Qle_refl.
    - assert (E1 : (Qabs (0 - decimal d k) == Qabs (decimal d k))%Q).
      { rewrite <- Qabs_opp. apply Qabs_wd. ring. } rewrite E1 in Q. rewrite Q. apply Qle_refl. }
  assert (H2 : (Qabs (dval x) <= 2 * Qabs (decimal d k))%Q).
  { pose proof (Qabs_triangle (dval x - decimal d k) (decimal d k)) as T.
    assert (E1 : (dval x - decimal d k + decimal d k == dval x)%Q) by ring. rewrite E1 in T. lra. }
  assert (Hax : (Qabs (dval x) == frac (mag_units (dmag x) * P400))%Q).
  { rewrite (dval_frac x Hx Hf).
    transitivity (frac (Z.abs ((if dneg x then - mag_units (dmag x) else mag_units (dmag x)) * P400))); [reflexivity|].
    replace (Z.abs ((if dneg x then - mag_units (dmag x) else mag_units (dmag x)) * P400))
      with (mag_units (dmag x) * P400) by (unfold two52 in Mx; destruct (dneg x); nia). reflexivity. }
  rewrite Hax in H2.
  set (n := d <? 0). set (D := Z.abs d) in *.
  assert (Ed : d = sgn n D) by (unfold sgn, n, D; destruct (d <? 0) eqn:E; [apply Z.ltb_lt in E|apply Z.ltb_ge in E]; lia).
  assert (Hdabs : forall a, (Qabs (decimal a k) == decimal (Z.abs a) k)%Q).
  { intro a. unfold decimal. rewrite Qabs_Qmult. rewrite (Qabs_pos ((10 # 1) ^ k)) by (apply Qlt_le_weak, ten_pow_pos).
    reflexivity. }
  rewrite Hdabs in H2, Hmax. fold D in H2, Hmax.
  assert (HDp : 0 < D).
  { assert (D <> 0); [|unfold D in *; lia]. intro Q. rewrite Q in H2.
    assert (E0 : (decimal 0%Z k == frac 0%Z)%Q) by (unfold decimal; change (inject_Z 0) with 0%Q; rewrite Qmult_0_l; reflexivity). rewrite E0 in H2.
    pose proof (frac_mul 2 0) as E1. change (inject_Z 2) with 2%Q in E1. rewrite E1, frac_le in H2.
    unfold two52 in Mx. nia. }
  destruct (normalise D ltac:(lia)) as (j & Hj & HDj).
  assert (Hk : -317 <= k - j + 5).
  { assert (~ k - j + 5 <= -318); [|lia]. intro Q.
    assert (S1 : (decimal D k < frac (U (-317)))%Q).
    { assert (G : forall X1, X1 = -317 -> (decimal D k < frac (U X1))%Q); [|apply G; reflexivity].
      intros X1 H1. rewrite (decimal_shift D k j Hj).
      apply small_frac; [change (10 ^ 6) with 1000000; lia|lia|lia]. }
    assert (B : 2 * U (-317) <= 10000000 * P400) by (apply Z.leb_le; vm_compute; reflexivity).
    revert S1 B. generalize (U (-317)). intros u1 S1 B.
    assert (S2 : (frac (mag_units (dmag x) * P400) < frac (2 * u1))%Q).
    { pose proof (frac_mul 2 u1) as E1. change (inject_Z 2) with 2%Q in E1. lra. }
    rewrite frac_lt in S2.
    unfold two52 in Mx. nia. }
  set (X := k - j + 5) in *. set (D' := D * 10 ^ j) in *.
  assert (EX : X - 5 = k - j) by (unfold X; lia).
  assert (Edec : (decimal d k == decimal (sgn n D') (X - 5))%Q).
  { rewrite Ed, EX. rewrite (decimal_shift _ k j Hj). unfold D', sgn. destruct n; [|reflexivity].
    rewrite Z.mul_opp_l. reflexivity. }
  assert (HF : dec_round D' X < inf_mag).
  { assert (dec_round D' X <= max_mag); [|unfold max_mag, inf_mag in *; lia].
    pose proof (U_pos (X - 5) ltac:(lia)) as HU.
    apply round_u_le; [nia|exact HP|unfold max_mag; lia|].
    apply frac_le. rewrite <- decimal_frac by lia.
    assert (E1 : (decimal D' (X - 5) == decimal D k)%Q).
    { rewrite EX. unfold D'. rewrite <- decimal_shift by exact Hj. reflexivity. }
    rewrite E1. eapply Qle_trans; [exact Hmax|].
    assert (Sm : size_ok dbl_max) by (unfold size_ok, dbl_max, two64; lia).
    assert (Fm : finite dbl_max) by (vm_compute; discriminate).
    rewrite (dval_frac dbl_max Sm Fm). apply Qle_refl. }
  (* x is the model's rounding of that decimal *)
  assert (Hsgn : dneg x = n).
  { destruct (Bool.bool_dec (dneg x) n) as [Q|Q]; [exact Q|]. exfalso.
    rewrite Ed in H0. rewrite Hdabs in H0. rewrite (dval_frac x Hx Hf) in H0.
    assert (En : dneg x = negb n) by (destruct (dneg x), n; congruence || reflexivity).
    assert (HDq : (0 < decimal D k)%Q).
    { unfold decimal. apply Qmult_lt_0_compat; [|apply ten_pow_pos].
      change 0%Q with (inject_Z 0). rewrite <- Zlt_Qlt. lia. }
    assert (Hm : (0 < frac (mag_units (dmag x) * P400))%Q).
    { change 0%Q with (0 # 1)%Q. unfold frac, Qlt. cbn [Qnum Qden]. unfold two52 in Mx. nia. }
    rewrite En in H0. destruct n; cbn [negb sgn] in H0.
    - rewrite Z.abs_opp, (Z.abs_eq D) in H0 by lia. rewrite decimal_opp in H0.
      rewrite Qabs_pos in H0 by lra. lra.
    - rewrite (Z.abs_eq D) in H0 by lia. rewrite Z.mul_opp_l, frac_opp in H0.
      rewrite Qabs_neg in H0 by lra. lra. }
  assert (HR : 0 <= dec_round D' X).
  { pose proof (U_pos (X - 5) ltac:(lia)). apply round_u_nonneg; [nia|exact HP]. }
  assert (EXx : x = mk_dbl n (dec_round D' X)).
  { apply (closest_double_unique (decimal d k)); [exact C| |].
    - pose proof (closest_double_mag n D' X ltac:(lia) ltac:(lia) HF) as (G1 & G2 & G3).
      split; [exact G1|]. split; [exact G2|]. intros z Hz Hfz. rewrite Edec. exact (G3 z Hz Hfz).
    - rewrite Hsgn. symmetry. apply dneg_mk. lia. }
  rewrite EXx. unfold ascii_round. rewrite dneg_mk, dmag_mk by lia.
  rewrite ascii_mag_six by (assumption || lia). reflexivity.
Qed.

(** Relative error of at most 1/199998 on normal numbers. *)
Theorem six_digits_error : forall x, size_ok x -> finite x -> normal x ->
  (199998 * Qabs (dval (ascii_round x) - dval x) <= Qabs (dval x))%Q.
Proof.
  intros x Hx Hf Hn. pose proof (normal_mag x Hx Hf Hn) as HM. pose proof (finite_mag x Hx Hf) as HMf.
  pose proof (finite_is_finite x Hx Hf) as Hif.
  pose proof (ascii_round_ok x Hx Hif) as (Hy & Hfy).
  pose proof (is_finite_finite _ Hy Hfy) as Hfy'.
  pose proof (ascii_mag_err_normal (dmag x) ltac:(lia)) as E.
  rewrite (dval_frac x Hx Hf), (dval_frac _ Hy Hfy'), frac_dist.
  rewrite ascii_round_dneg, ascii_round_dmag by assumption.
  change 199998%Q with (inject_Z 199998). rewrite frac_mul.
  assert (E2 : forall a, (Qabs (frac a) == frac (Z.abs a))%Q) by (intro; reflexivity).
  rewrite E2, frac_le. pose proof P400_pos.
  pose proof (mag_units_nonneg (dmag x) ltac:(lia)) as P1.
  pose proof (ascii_mag_range (dmag x) ltac:(lia)) as P2.
  set (V' := mag_units (ascii_mag (dmag x))) in *. set (V := mag_units (dmag x)) in *.
  replace ((if dneg x then - V' else V') * P400 - (if dneg x then - V else V) * P400)
    with ((if dneg x then V - V' else V' - V) * P400) by (destruct (dneg x); ring).
  rewrite !Z.abs_mul, (Z.abs_eq P400) by lia.
  replace (Z.abs (if dneg x then V - V' else V' - V)) with (Z.abs (V' - V)) by (destruct (dneg x); lia).
  replace (Z.abs (if dneg x then - V else V)) with V by (destruct (dneg x); lia).
  nia.
Qed.
