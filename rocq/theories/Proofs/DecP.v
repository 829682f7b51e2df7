(** The six-digit decimal of a double, and reading it back. *)

From Verif Require Import Model.Save Proofs.BytesP Proofs.RtBase Proofs.DblP.

Ltac Zify.zify_post_hook ::= idtac.

(** 10^k scaled by 2^1074 * 10^400 / ..., i.e. 10^X in units of 2^-1074 * 10^-400. *)
Definition U (X : Z) : Z := 2 ^ 1074 * 10 ^ (X + 400).
Definition P400 : Z := 10 ^ 400.

Lemma U_pos : forall X, -400 <= X -> 0 < U X.
Proof. intros X H. unfold U. apply Z.mul_pos_pos; [reflexivity|]. apply Z.pow_pos_nonneg; lia. Qed.

Lemma U_succ : forall X, -400 <= X -> U (X + 1) = 10 * U X.
Proof.
  intros X H. unfold U. replace (X + 1 + 400) with (Z.succ (X + 400)) by lia.
  rewrite Z.pow_succ_r by lia. generalize (2 ^ 1074). intro. lia.
Qed.

Lemma U_add : forall k X, 0 <= k -> -400 <= X -> U (X + k) = 10 ^ k * U X.
Proof.
  intros k X Hk HX. unfold U. replace (X + k + 400) with (k + (X + 400)) by lia.
  rewrite Z.pow_add_r by lia. generalize (2 ^ 1074). intro. lia.
Qed.

Lemma U_le : forall X Y, -400 <= X -> X <= Y -> U X <= U Y.
Proof.
  intros X Y HX HY. unfold U. apply Z.mul_le_mono_nonneg_l; [vm_compute; discriminate|].
  apply Z.pow_le_mono_r; lia.
Qed.

Lemma P400_pos : 0 < P400. Proof. reflexivity. Qed.

Definition dec_est (L : Z) : Z := (L - 1074) * 30103 / 100000 - 1.

(** 28/93 and 59/196 enclose the decimal logarithm of 2. *)
Lemma pow2_le_pow10 : forall m q, 0 <= m -> 0 <= q -> 28 * m <= 93 * q -> 2 ^ m <= 10 ^ q.
Proof.
  intros m q Hm Hq H.
  assert (G : (2 ^ m) ^ 93 <= (10 ^ q) ^ 93).
  { rewrite <- !Z.pow_mul_r by lia. replace (m * 93) with (93 * m) by lia. rewrite Z.pow_mul_r by lia.
    apply Z.le_trans with ((10 ^ 28) ^ m).
    - apply Z.pow_le_mono_l. split; [discriminate|]. apply Z.leb_le. reflexivity.
    - rewrite <- Z.pow_mul_r by lia. apply Z.pow_le_mono_r; lia. }
  apply Z.pow_le_mono_l_iff in G; [exact G|apply Z.pow_nonneg; lia|apply Z.pow_nonneg; lia|reflexivity].
Qed.

Lemma pow10_le_pow2 : forall m q, 0 <= m -> 0 <= q -> 196 * q <= 59 * m -> 10 ^ q <= 2 ^ m.
Proof.
  intros m q Hm Hq H.
  assert (G : (10 ^ q) ^ 59 <= (2 ^ m) ^ 59).
  { rewrite <- !Z.pow_mul_r by lia. replace (q * 59) with (59 * q) by lia. rewrite Z.pow_mul_r by lia.
    apply Z.le_trans with ((2 ^ 196) ^ q).
    - apply Z.pow_le_mono_l. split; [discriminate|]. apply Z.leb_le. reflexivity.
    - rewrite <- Z.pow_mul_r by lia. apply Z.pow_le_mono_r; lia. }
  apply Z.pow_le_mono_l_iff in G; [exact G|apply Z.pow_nonneg; lia|apply Z.pow_nonneg; lia|reflexivity].
Qed.

Lemma U_below : forall L X, 0 <= L -> -400 <= X ->
  (1074 <= L -> X <= 0 \/ 196 * X <= 59 * (L - 1074)) ->
  (L < 1074 -> X <= 0 /\ 28 * (1074 - L) <= 93 * - X) -> U X <= 2 ^ L * P400.
Proof.
  intros L X HL HX A B. unfold U, P400. destruct (Z_le_gt_dec 1074 L) as [C|C].
  - replace L with (1074 + (L - 1074)) by lia. rewrite (Z.pow_add_r 2) by lia. rewrite <- Z.mul_assoc.
    apply Z.mul_le_mono_nonneg_l; [apply Z.pow_nonneg; lia|]. destruct (Z_le_gt_dec X 0) as [D|D].
    + apply Z.le_trans with (1 * 10 ^ 400).
      * rewrite Z.mul_1_l. apply Z.pow_le_mono_r; lia.
      * apply Z.mul_le_mono_nonneg_r; [apply Z.pow_nonneg; lia|].
        pose proof (Z.pow_pos_nonneg 2 (L - 1074)). lia.
    + rewrite Z.pow_add_r by lia. apply Z.mul_le_mono_nonneg_r; [apply Z.pow_nonneg; lia|].
      apply pow10_le_pow2; lia.
  - destruct (B ltac:(lia)) as (D & E). replace 1074 with (L + (1074 - L)) at 1 by lia.
    rewrite (Z.pow_add_r 2) by lia. rewrite <- Z.mul_assoc.
    apply Z.mul_le_mono_nonneg_l; [apply Z.pow_nonneg; lia|].
    apply Z.le_trans with (10 ^ (- X) * 10 ^ (X + 400)).
    + apply Z.mul_le_mono_nonneg_r; [apply Z.pow_nonneg; lia|]. apply pow2_le_pow10; lia.
    + rewrite <- Z.pow_add_r by lia. apply Z.pow_le_mono_r; lia.
Qed.

Lemma U_above : forall L Y, 0 <= L -> -400 <= Y ->
  (1074 <= L -> 0 <= Y /\ 28 * (L - 1074) <= 93 * Y) ->
  (L < 1074 -> 0 <= Y \/ 196 * - Y <= 59 * (1074 - L)) -> 2 ^ L * P400 <= U Y.
Proof.
  intros L Y HL HY A B. unfold U, P400. destruct (Z_le_gt_dec 1074 L) as [C|C].
  - destruct (A C) as (D & E). replace L with (1074 + (L - 1074)) by lia. rewrite (Z.pow_add_r 2) by lia.
    rewrite <- Z.mul_assoc. apply Z.mul_le_mono_nonneg_l; [apply Z.pow_nonneg; lia|].
    rewrite (Z.pow_add_r 10) by lia. apply Z.mul_le_mono_nonneg_r; [apply Z.pow_nonneg; lia|].
    apply pow2_le_pow10; lia.
  - replace 1074 with (L + (1074 - L)) by lia.
    rewrite (Z.pow_add_r 2) by lia. rewrite <- Z.mul_assoc.
    apply Z.mul_le_mono_nonneg_l; [apply Z.pow_nonneg; lia|]. destruct (Z_le_gt_dec 0 Y) as [D|D].
    + apply Z.le_trans with (1 * 10 ^ (Y + 400)).
      * rewrite Z.mul_1_l. apply Z.pow_le_mono_r; lia.
      * apply Z.mul_le_mono_nonneg_r; [apply Z.pow_nonneg; lia|].
        pose proof (Z.pow_pos_nonneg 2 (1074 - L)). lia.
    + apply Z.le_trans with (10 ^ (- Y) * 10 ^ (Y + 400)).
      * rewrite <- Z.pow_add_r by lia. apply Z.pow_le_mono_r; lia.
      * apply Z.mul_le_mono_nonneg_r; [apply Z.pow_nonneg; lia|]. apply pow10_le_pow2; lia.
Qed.

Lemma est_spec : forall L, 0 <= L < 2098 ->
  -399 <= dec_est L /\ U (dec_est L) <= 2 ^ L * P400 /\
  2 ^ (L + 1) * P400 <= U (dec_est L + 5).
Proof.
  intros L HL. unfold dec_est. set (q := (L - 1074) * 30103 / 100000).
  assert (Hq : 100000 * q <= (L - 1074) * 30103 < 100000 * q + 100000).
  { pose proof (Z.div_mod ((L - 1074) * 30103) 100000 ltac:(discriminate)).
    pose proof (Z.mod_pos_bound ((L - 1074) * 30103) 100000 ltac:(reflexivity)). lia. }
  clearbody q. split; [lia|]. split.
  - apply U_below; lia.
  - apply U_above; lia.
Qed.

Lemma dec_exp_up_spec : forall f u X,
  -400 <= X -> U X <= u * P400 < U (X + Z.of_nat f) ->
  let X' := dec_exp_up f u X in
  X <= X' /\ U X' <= u * P400 < U (X' + 1).
Proof.
  induction f as [|f IH]; intros u X HX H.
  - change (Z.of_nat 0) with 0 in H. rewrite Z.add_0_r in H. lia.
  - cbn [dec_exp_up].
    change (u * 10 ^ 400 <? 2 ^ 1074 * 10 ^ (X + 401)) with (u * P400 <? 2 ^ 1074 * 10 ^ (X + 401)).
    replace (2 ^ 1074 * 10 ^ (X + 401)) with (U (X + 1)) by (unfold U; do 2 f_equal; lia).
    destruct (u * P400 <? U (X + 1)) eqn:E.
    + apply Z.ltb_lt in E. cbv zeta. repeat split; [lia|apply H|exact E].
    + apply Z.ltb_ge in E. cbv zeta.
      destruct (IH u (X + 1)) as (A & B & C); [lia| |repeat split; [lia|exact B|exact C]].
      split; [exact E|]. replace (X + 1 + Z.of_nat f) with (X + Z.of_nat (S f)) by lia. apply H.
Qed.

Definition in_range (u : Z) : Prop := 0 < u < 2 ^ 2098.

Lemma dec_exp_spec : forall u, in_range u ->
  -399 <= dec_exp u /\ U (dec_exp u) <= u * P400 < U (dec_exp u + 1).
Proof.
  intros u Hu. destruct (est_spec (Z.log2 u)) as (E1 & E2 & E3).
  { split; [apply Z.log2_nonneg|]. apply Z.log2_lt_pow2; apply Hu. }
  pose proof (Z.log2_spec u (proj1 Hu)) as [L1 L2]. rewrite <- Z.add_1_r in L2.
  pose proof P400_pos as HP.
  destruct (dec_exp_up_spec 5 u (dec_est (Z.log2 u))) as (A & B); [lia| |].
  - change (Z.of_nat 5) with 5. split.
    + eapply Z.le_trans; [exact E2|]. apply Z.mul_le_mono_nonneg_r; lia.
    + eapply Z.lt_le_trans; [|exact E3]. apply Z.mul_lt_mono_pos_r; lia.
  - unfold dec_exp. change ((Z.log2 u - 1074) * 30103 / 100000 - 1) with (dec_est (Z.log2 u)).
    split; [lia|exact B].
Qed.

Lemma dec_exp_range : forall u, in_range u -> -324 <= dec_exp u <= 308.
Proof.
  intros u Hu. destruct (dec_exp_spec u Hu) as (A & B & C). split.
  - assert (~ dec_exp u + 1 <= -324); [|lia]. intro H.
    apply (U_le _ (-324)) in H; [|lia].
    assert (U (-324) <= 1 * P400) by (rewrite Z.mul_1_l, <- (Z.mul_1_l P400); change 1 with (2 ^ 0); apply U_below; lia).
    assert (1 * P400 <= u * P400).
    { apply Z.mul_le_mono_nonneg_r; [apply Z.lt_le_incl, P400_pos|]. destruct Hu. lia. }
    lia.
  - assert (~ 309 <= dec_exp u); [|lia]. intro H.
    apply (U_le 309) in H; [|lia].
    assert (2 ^ 2098 * P400 <= U 309) by (apply U_above; lia).
    assert (M : u * P400 < 2 ^ 2098 * P400) by (apply Z.mul_lt_mono_pos_r; [exact P400_pos|apply Hu]).
    assert (2 ^ 2098 * P400 < 2 ^ 2098 * P400); [|apply (Z.lt_irrefl _ H1)].
    eapply Z.le_lt_trans; [exact H0|]. eapply Z.le_lt_trans; [exact H|]. eapply Z.le_lt_trans; [exact B|exact M].
Qed.

Lemma dec_exp_unique : forall u X, in_range u -> -400 <= X ->
  U X <= u * P400 < U (X + 1) -> dec_exp u = X.
Proof.
  intros u X Hu HX H. destruct (dec_exp_spec u Hu) as (A & B & C).
  destruct (Z.lt_trichotomy (dec_exp u) X) as [L|[L|L]]; [|exact L|].
  - pose proof (U_le (dec_exp u + 1) X ltac:(lia) ltac:(lia)). lia.
  - pose proof (U_le (X + 1) (dec_exp u) ltac:(lia) ltac:(lia)). lia.
Qed.

Lemma sci6_unfold : forall u,
  sci6 u = let X := dec_exp u in
           let D := rne_div (u * P400) (U (X - 5)) in
           if D =? 1000000 then (100000, X + 1) else (D, X).
Proof.
  intro u. unfold sci6, U. cbv zeta. replace (dec_exp u - 5 + 400) with (dec_exp u + 395) by lia.
  reflexivity.
Qed.

(** The printed decimal D * 10^(X-5): range and error. *)
Lemma sci6_spec : forall u D X, in_range u -> sci6 u = (D, X) ->
  100000 <= D <= 999999 /\ -324 <= X <= 309 /\
  200000 * Z.abs (D * U (X - 5) - u * P400) <= u * P400.
Proof.
  intros u D X Hu E. rewrite sci6_unfold in E. cbv zeta in E.
  destruct (dec_exp_spec u Hu) as (A & B & C). pose proof (dec_exp_range u Hu) as R.
  set (X0 := dec_exp u) in *.
  pose proof (U_pos (X0 - 5) ltac:(lia)) as HT.
  assert (E5 : U X0 = 100000 * U (X0 - 5)).
  { replace X0 with (X0 - 5 + 5) at 1 by lia. rewrite U_add by lia. reflexivity. }
  assert (E6 : U (X0 + 1) = 1000000 * U (X0 - 5)) by (rewrite U_succ by lia; lia).
  pose proof (rne_div_err (u * P400) (U (X0 - 5)) HT) as Err.
  pose proof (rne_div_lower (u * P400) (U (X0 - 5)) 100000 HT ltac:(lia)) as Lo.
  pose proof (rne_div_upper (u * P400) (U (X0 - 5)) 1000000 HT ltac:(lia)) as Up.
  set (D0 := rne_div (u * P400) (U (X0 - 5))) in *.
  destruct (D0 =? 1000000) eqn:ED.
  - apply Z.eqb_eq in ED. injection E as <- <-.
    replace (X0 + 1 - 5) with (X0 - 5 + 1) by lia. rewrite U_succ by lia.
    rewrite ED in Err. lia.
  - apply Z.eqb_neq in ED. injection E as <- <-. lia.
Qed.

(** A number close enough to a six-digit decimal prints as that decimal. *)
Lemma sci6_unique : forall u D X, in_range u -> 100000 <= D <= 999999 -> -390 <= X ->
  2000000 * Z.abs (D * U (X - 5) - u * P400) < D * U (X - 5) ->
  sci6 u = (D, X).
Proof.
  intros u D X Hu HD HX H. rewrite sci6_unfold. cbv zeta.
  pose proof (U_pos (X - 6) ltac:(lia)) as HT6.
  assert (E5 : U (X - 5) = 10 * U (X - 6)).
  { replace (X - 5) with (X - 6 + 1) by lia. apply U_succ. lia. }
  assert (E0 : U X = 1000000 * U (X - 6)).
  { replace X with (X - 6 + 6) at 1 by lia. rewrite U_add by lia. reflexivity. }
  assert (E1 : U (X + 1) = 10000000 * U (X - 6)) by (rewrite U_succ by lia; lia).
  assert (Em1 : U (X - 1) = 100000 * U (X - 6)).
  { replace (X - 1) with (X - 6 + 5) by lia. rewrite U_add by lia. reflexivity. }
  destruct (Z_lt_le_dec (u * P400) (U X)) as [L|L].
  - assert (D = 100000) by nia. subst D.
    assert (EX : dec_exp u = X - 1).
    { apply dec_exp_unique; [exact Hu|lia|]. replace (X - 1 + 1) with X by lia. lia. }
    rewrite EX. replace (X - 1 - 5) with (X - 6) by lia.
    rewrite (rne_div_unique _ _ 1000000) by lia.
    replace (X - 1 + 1) with X by lia. reflexivity.
  - assert (EX : dec_exp u = X).
    { apply dec_exp_unique; [exact Hu|lia|]. split; [exact L|]. nia. }
    rewrite EX. rewrite (rne_div_unique _ _ D) by nia.
    replace (D =? 1000000) with false by (symmetry; apply Z.eqb_neq; lia). reflexivity.
Qed.

(** ** Reading a decimal *)

(** Nearest double magnitude of D * 10^(X-5). *)
Definition dec_round (D X : Z) : Z := round_u (D * U (X - 5)) P400.

Lemma round_dec_canon : forall m e, 0 <= m -> -400 <= e ->
  round_dec m e = round_u (m * U e) P400.
Proof.
  intros m e Hm He. unfold round_dec. destruct (0 <=? e) eqn:E.
  - apply Z.leb_le in E. rewrite round_pos_u. apply round_u_cross; [lia|reflexivity|].
    unfold U, P400. rewrite Z.pow_add_r by lia. generalize (2 ^ 1074), (10 ^ 400). intros. lia.
  - apply Z.leb_gt in E. rewrite round_pos_u. apply round_u_cross; [apply Z.pow_pos_nonneg; lia|reflexivity|].
    unfold U, P400. replace 400 with (e + 400 + (-e)) at 1 by lia.
    rewrite (Z.pow_add_r 10 (e + 400) (- e)) by lia. generalize (2 ^ 1074), (10 ^ (e + 400)), (10 ^ (- e)). intros. lia.
Qed.

Lemma round_dec_same : forall m e D X, 0 <= m -> -400 <= e -> -395 <= X ->
  m * U e = D * U (X - 5) -> round_dec m e = dec_round D X.
Proof. intros m e D X Hm He HX E. rewrite round_dec_canon by assumption. rewrite E. reflexivity. Qed.

Lemma mag_units_range : forall a, 0 < a < inf_mag -> in_range (mag_units a).
Proof.
  intros a [H1 H2]. split; [apply mag_units_pos; exact H1|].
  change (2 ^ 2098) with (mag_units inf_mag). apply mag_units_mono. lia.
Qed.

(** 10^X for X >= 0. *)
Lemma U_nonneg : forall X, 0 <= X -> U X = 10 ^ X * (2 ^ 1074 * P400).
Proof.
  intros X H. unfold U, P400. rewrite Z.pow_add_r by lia. generalize (2 ^ 1074), (10 ^ 400), (10 ^ X).
  intros. lia.
Qed.

Lemma max_units : mag_units max_mag = (2 ^ 53 - 1) * 2 ^ 971 * 2 ^ 1074.
Proof. reflexivity. Qed.

Lemma unit_pos : 0 < 2 ^ 1074 * P400.
Proof. apply Z.mul_pos_pos; [reflexivity|exact P400_pos]. Qed.

Lemma max_le_U : forall k X, 0 <= X -> (2 ^ 53 - 1) * 2 ^ 971 <= k * 10 ^ X -> mag_units max_mag * P400 <= k * U X.
Proof.
  intros k X HX H. rewrite max_units, U_nonneg by exact HX.
  rewrite <- Z.mul_assoc. rewrite (Z.mul_assoc k). apply Z.mul_le_mono_nonneg_r; [apply Z.lt_le_incl, unit_pos|exact H].
Qed.

Lemma U_le_max : forall k X, 0 <= X -> k * 10 ^ X <= (2 ^ 53 - 1) * 2 ^ 971 -> k * U X <= mag_units max_mag * P400.
Proof.
  intros k X HX H. rewrite max_units, U_nonneg by exact HX.
  rewrite <- Z.mul_assoc. rewrite (Z.mul_assoc k). apply Z.mul_le_mono_nonneg_r; [apply Z.lt_le_incl, unit_pos|exact H].
Qed.

(** Re-reading never overflows. *)
Lemma dec_round_finite : forall a D X, 0 < a < inf_mag -> sci6 (mag_units a) = (D, X) ->
  0 <= dec_round D X < inf_mag.
Proof.
  intros a D X Ha E. pose proof (mag_units_range a Ha) as R.
  pose proof (sci6_spec _ _ _ R E) as (HD & HX & Herr).
  pose proof (U_pos (X - 5) ltac:(lia)) as HT.
  unfold dec_round. split; [apply round_u_nonneg; [lia|reflexivity]|].
  assert (round_u (D * U (X - 5)) P400 <= max_mag); [|unfold max_mag, inf_mag in *; lia].
  apply round_u_le; [lia|reflexivity|unfold max_mag; lia|].
  destruct (Z_le_gt_dec X 307) as [C|C].
  - apply Z.le_trans with (1000000 * U (307 - 5)).
    + pose proof (U_le (X - 5) (307 - 5) ltac:(lia) ltac:(lia)). nia.
    + apply U_le_max; [lia|]. apply Z.leb_le. reflexivity.
  - assert (M : mag_units a <= mag_units max_mag).
    { destruct (Z.eq_dec a max_mag) as [->|]; [lia|].
      apply Z.lt_le_incl. apply mag_units_mono. unfold max_mag, inf_mag in *. lia. }
    rewrite sci6_unfold in E. cbv zeta in E.
    destruct (dec_exp_spec _ R) as (_ & B & _). pose proof (dec_exp_range _ R) as R2.
    assert (HP : mag_units a * P400 <= mag_units max_mag * P400).
    { apply Z.mul_le_mono_nonneg_r; [apply Z.lt_le_incl, P400_pos|exact M]. }
    destruct (rne_div (mag_units a * P400) (U (dec_exp (mag_units a) - 5)) =? 1000000) eqn:ED.
    + injection E as <- <-.
      assert (dec_exp (mag_units a) = 307 \/ dec_exp (mag_units a) = 308) as [Q|Q] by lia;
        rewrite Q.
      * apply U_le_max; [lia|]. apply Z.leb_le. reflexivity.
      * exfalso. apply Z.eqb_eq in ED. rewrite Q in ED.
        assert (rne_div (mag_units a * P400) (U (308 - 5)) <= 179770); [|lia].
        apply rne_div_upper; [apply U_pos; lia|]. eapply Z.le_trans; [exact HP|].
        apply max_le_U; [lia|]. apply Z.leb_le. reflexivity.
    + injection E as ED' EX. assert (Q : X = 308) by lia. rewrite EX, Q in *.
      assert (D <= 179769).
      { rewrite <- ED'. eapply Z.le_trans; [apply rne_div_mono; [apply U_pos; lia|exact HP]|].
        rewrite max_units, U_nonneg by lia. generalize unit_pos. rewrite <- Z.mul_assoc.
        generalize (2 ^ 1074 * P400). intros u Hu.
        rewrite 2 (Z.mul_comm _ u), rne_div_scale by (try exact Hu; apply Z.pow_pos_nonneg; lia).
        apply Z.leb_le. vm_compute. reflexivity. }
      apply Z.le_trans with (179769 * U (308 - 5)).
      * apply Z.mul_le_mono_nonneg_r; [apply Z.lt_le_incl, U_pos; lia|assumption].
      * apply U_le_max; [lia|]. apply Z.leb_le. reflexivity.
Qed.

(** A six-digit decimal in the range where rounding is fine enough is printed
    back as itself. *)
Lemma sci6_dec_round : forall D X, 100000 <= D <= 999999 -> -317 <= X ->
  dec_round D X < inf_mag -> sci6 (mag_units (dec_round D X)) = (D, X).
Proof.
  intros D X HD HX Hf. pose proof (U_pos (X - 5) ltac:(lia)) as HT.
  assert (HN : 0 <= D * U (X - 5)) by lia. pose proof P400_pos as HP.
  pose proof (U_le (-322) (X - 5) ltac:(lia) ltac:(lia)) as HU.
  assert (HU' : 20 * P400 <= U (-322)) by (apply Z.leb_le; vm_compute; reflexivity).
  assert (Hbig : 2000000 * P400 <= D * U (X - 5)) by nia.
  assert (Hpos : 0 < dec_round D X).
  { unfold dec_round. assert (1 <= round_u (D * U (X - 5)) P400); [|lia].
    apply round_u_ge; [lia|exact HP|lia|]. change (mag_units 1) with 1. lia. }
  apply sci6_unique; [apply mag_units_range; lia|exact HD|lia|].
  unfold dec_round.
  destruct (round_u_err (D * U (X - 5)) P400 HN HP) as [E|E].
  - set (V := mag_units _ * P400 - _) in *.
    replace (D * U (X - 5) - mag_units (round_u (D * U (X - 5)) P400) * P400) with (- V) by (unfold V; lia).
    rewrite Z.abs_opp.
    nia.
  - set (V := mag_units _ * P400 - _) in *.
    replace (D * U (X - 5) - mag_units (round_u (D * U (X - 5)) P400) * P400) with (- V) by (unfold V; lia).
    rewrite Z.abs_opp. unfold two53 in E. lia.
Qed.
