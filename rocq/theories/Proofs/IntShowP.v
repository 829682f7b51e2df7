(** A whole number below a million printed as a double is printed as an integer. *)

From Verif Require Import Model.Inspect Proofs.BytesP Proofs.DblP Proofs.DecP Proofs.ShowP.

Ltac Zify.zify_post_hook ::= Z.div_mod_to_equations.

(** ** Decimal digits are determined by the number *)

Lemma digits_rev_more : forall f g n, 0 <= n < 10 ^ Z.of_nat f -> (f <= g)%nat -> (0 < f)%nat -> digits_rev g n = digits_rev f n.
Proof.
  induction f as [|f IH]; intros g n Hn Hg Hf; [lia|].
  destruct g as [|g]; [lia|]. cbn [digits_rev]. destruct (n <? 10) eqn:E; [reflexivity|].
  apply Z.ltb_ge in E. f_equal. rewrite Nat2Z.inj_succ, Z.pow_succ_r in Hn by lia.
  destruct f as [|f]; [change (10 ^ Z.of_nat 0) with 1 in Hn; lia|].
  apply IH; [|lia|lia]. split; [lia|]. apply Z.div_lt_upper_bound; lia.
Qed.

Lemma digits_fuel : forall n, 0 <= n -> n < 10 ^ Z.of_nat (S (Z.to_nat (Z.log2 n))).
Proof.
  intros n H. rewrite Nat2Z.inj_succ, Z2Nat.id by apply Z.log2_nonneg.
  destruct (Z.eq_dec n 0) as [->|Hn]; [reflexivity|].
  assert (Hl := Z.log2_spec n ltac:(lia)).
  apply Z.lt_le_trans with (2 ^ Z.succ (Z.log2 n)); [lia|]. apply Z.pow_le_mono_l. lia.
Qed.

Lemma dec_digits_snoc : forall v d, 0 < v -> digit d -> dec_digits (10 * v + d) = dec_digits v ++ [d].
Proof.
  intros v d Hv Hd. unfold digit in Hd. unfold dec_digits at 1. cbn [digits_rev].
  replace (10 * v + d <? 10) with false by (symmetry; apply Z.ltb_ge; lia). cbn [rev].
  replace ((10 * v + d) / 10) with v by lia. replace ((10 * v + d) mod 10) with d by lia. f_equal.
  unfold dec_digits. f_equal.
  assert (L : Z.log2 v < Z.log2 (10 * v + d)).
  { assert (E : Z.log2 (2 * v) = Z.succ (Z.log2 v)) by (apply Z.log2_double; lia).
    pose proof (Z.log2_le_mono (2 * v) (10 * v + d) ltac:(lia)). lia. }
  pose proof (Z.log2_nonneg v).
  apply digits_rev_more; [split; [lia|apply digits_fuel; lia]|lia|lia].
Qed.

Lemma dec_digits_unique : forall l, Forall digit l -> (exists d r, l = d :: r /\ 0 < d) -> dec_digits (digits_val l) = l.
Proof.
  induction l as [|d l IH] using rev_ind; intros F (h & r & E & Hh); [discriminate|].
  apply Forall_app in F as (F & D). apply Forall_inv in D.
  rewrite digits_val_app. replace (10 ^ zlen [d]) with 10 by reflexivity.
  replace (digits_val [d]) with d by (unfold digits_val; cbn [fold_left]; lia).
  destruct l as [|x l].
  - unfold digit in D. injection E as -> <-. change (digits_val []) with 0. rewrite Z.add_0_l.
    unfold dec_digits. cbn [digits_rev]. replace (h <? 10) with true by (symmetry; apply Z.ltb_lt; lia). reflexivity.
  - injection E as -> E. pose proof (Forall_inv_tail F) as Fl.
    rewrite (Z.mul_comm _ 10), dec_digits_snoc; [|rewrite digits_val_cons|exact D].
    + rewrite IH; [reflexivity|exact F|eauto].
    + pose proof (digits_val_nonneg _ Fl). assert (0 < 10 ^ zlen l) by (apply Z.pow_pos_nonneg; [lia|apply zlen_nonneg]). nia.
Qed.

Lemma digits_val_bound : forall l, Forall digit l -> digits_val l < 10 ^ zlen l.
Proof.
  intros l F. induction F as [|d l Hd _ IH]; [reflexivity|]. unfold digit in Hd.
  rewrite digits_val_cons, zlen_cons. replace (zlen l + 1) with (Z.succ (zlen l)) by lia.
  rewrite Z.pow_succ_r by apply zlen_nonneg.
  assert (0 < 10 ^ zlen l) by (apply Z.pow_pos_nonneg; [lia|apply zlen_nonneg]). nia.
Qed.

(** ** Printing *)

Lemma strip0_head : forall r d s, strip0 r = d :: s -> d <> 0.
Proof.
  induction r as [|x r IH]; intros d s; cbn [strip0]; [discriminate|].
  destruct x; [apply IH|intro E; injection E as <- _; discriminate|intro E; injection E as <- _; discriminate].
Qed.

Lemma strip_last : forall ds l d, strip_zeros ds = l ++ [d] -> d <> 0.
Proof.
  intros ds l d E. unfold strip_zeros in E. apply (f_equal (@rev Z)) in E. rewrite rev_involutive, rev_app_distr in E.
  eapply strip0_head. exact E.
Qed.

Lemma show_g_whole : forall a X, 0 <= X <= 5 -> 10 ^ X <= a < 10 ^ (X + 1) ->
  show_g (a * 10 ^ (5 - X)) X = show_nonneg a.
Proof.
  intros a X HX Ha.
  assert (P5 : 10 ^ X * 10 ^ (5 - X) = 100000) by (rewrite <- Z.pow_add_r by lia; replace (X + (5 - X)) with 5 by lia; reflexivity).
  assert (P6 : 10 ^ (X + 1) * 10 ^ (5 - X) = 1000000) by (rewrite <- Z.pow_add_r by lia; replace (X + 1 + (5 - X)) with 6 by lia; reflexivity).
  assert (P : 0 < 10 ^ (5 - X)) by (apply Z.pow_pos_nonneg; lia).
  assert (HD : 100000 <= a * 10 ^ (5 - X) <= 999999) by nia.
  destruct (stripped _ HD) as (d & ds & E & Hd & Hds & HL & HV).
  unfold show_g. rewrite E. pose proof (zlen_nonneg _ ds) as Hz.
  replace ((-4 <=? X) && (X <? 6)) with true by (symmetry; apply andb_true_iff; rewrite Z.leb_le, Z.ltb_lt; lia).
  replace (X <? 0) with false by (symmetry; apply Z.ltb_ge; lia). cbv zeta.
  assert (HK : zlen ds <= X).
  { apply Z.nlt_ge. intro C.
    destruct (@exists_last _ (d :: ds) ltac:(discriminate)) as (l & x & El).
    pose proof (strip_last _ l x (eq_trans E El)) as Hx.
    assert (F : Forall digit (l ++ [x])) by (rewrite <- El; constructor; assumption).
    apply Forall_app in F as (_ & Fx). apply Forall_inv in Fx. unfold digit in Fx.
    rewrite El, digits_val_app in HV. change (10 ^ zlen [x]) with 10 in HV.
    replace (digits_val [x]) with x in HV by (unfold digits_val; cbn [fold_left]; lia).
    replace (5 - X) with (5 - zlen ds + (zlen ds - X - 1) + 1) in HV by lia.
    rewrite !Z.pow_add_r in HV by lia. change (10 ^ 1) with 10 in HV.
    assert (Q : 0 < 10 ^ (5 - zlen ds)) by (apply Z.pow_pos_nonneg; lia).
    assert (HV' : digits_val l * 10 + x = a * 10 ^ (zlen ds - X - 1) * 10).
    { apply (Z.mul_reg_r _ _ (10 ^ (5 - zlen ds))); [lia|]. rewrite HV. ring. }
    lia. }
  replace (List.length (d :: ds) <=? Z.to_nat (X + 1))%nat with true
    by (symmetry; apply Nat.leb_le; cbn [List.length]; unfold zlen in HK; lia).
  rewrite chrs_repeat0, <- chrs_app. unfold show_nonneg, chrs. f_equal.
  symmetry.
  assert (V : digits_val ((d :: ds) ++ repeat 0 (Z.to_nat (X + 1) - List.length (d :: ds))) = a).
  { rewrite digits_val_app, digits_val_zeros, Z.add_0_r. unfold zlen at 1. rewrite repeat_length.
    replace (Z.of_nat (Z.to_nat (X + 1) - List.length (d :: ds))) with (X - zlen ds) by (cbn [List.length]; unfold zlen in *; lia).
    apply (Z.mul_reg_r _ _ (10 ^ (5 - X))); [lia|]. rewrite <- HV, <- Z.mul_assoc, <- Z.pow_add_r by lia.
    f_equal. f_equal. lia. }
  rewrite <- V at 1. apply dec_digits_unique.
  - apply Forall_app. split; [constructor; assumption|apply Forall_repeat0].
  - exists d, (ds ++ repeat 0 (Z.to_nat (X + 1) - List.length (d :: ds))). split; [reflexivity|].
    unfold digit in Hd. destruct (Z.eq_dec d 0) as [->|]; [|lia]. exfalso.
    rewrite digits_val_cons, Z.mul_0_l, Z.add_0_l in HV.
    assert (B : digits_val ds < 10 ^ zlen ds) by (apply digits_val_bound; assumption).
    assert (Q : 0 < 10 ^ (5 - zlen ds)) by (apply Z.pow_pos_nonneg; lia).
    assert (10 ^ zlen ds * 10 ^ (5 - zlen ds) = 100000).
    { rewrite <- Z.pow_add_r by lia. replace (zlen ds + (5 - zlen ds)) with 5 by lia. reflexivity. }
    nia.
Qed.

Lemma whole_exp : forall a, 1 <= a < 1000000 -> exists X, 0 <= X <= 5 /\ 10 ^ X <= a < 10 ^ (X + 1).
Proof.
  intros a H.
  destruct (Z_lt_le_dec a 10); [exists 0; cbn; lia|].
  destruct (Z_lt_le_dec a 100); [exists 1; cbn; lia|].
  destruct (Z_lt_le_dec a 1000); [exists 2; cbn; lia|].
  destruct (Z_lt_le_dec a 10000); [exists 3; cbn; lia|].
  destruct (Z_lt_le_dec a 100000); [exists 4; cbn; lia|].
  exists 5; cbn; lia.
Qed.

Lemma whole_mag : forall a, 1 <= a < 1000000 -> exists X, 0 <= X <= 5 /\ 10 ^ X <= a < 10 ^ (X + 1) /\
  0 < round_pos a 1 <= max_mag /\ sci6 (mag_units (round_pos a 1)) = (a * 10 ^ (5 - X), X).
Proof.
  intros a Ha. destruct (whole_exp a Ha) as (X & HX & B). exists X. split; [exact HX|]. split; [exact B|].
  assert (P5 : 10 ^ X * 10 ^ (5 - X) = 100000) by (rewrite <- Z.pow_add_r by lia; replace (X + (5 - X)) with 5 by lia; reflexivity).
  assert (P6 : 10 ^ (X + 1) * 10 ^ (5 - X) = 1000000) by (rewrite <- Z.pow_add_r by lia; replace (X + 1 + (5 - X)) with 6 by lia; reflexivity).
  assert (P : 0 < 10 ^ (5 - X)) by (apply Z.pow_pos_nonneg; lia).
  assert (HD : 100000 <= a * 10 ^ (5 - X) <= 999999) by nia.
  assert (HU : a * U 0 = a * 10 ^ (5 - X) * U (X - 5)).
  { replace 0 with (X - 5 + (5 - X)) at 1 by lia. rewrite U_add by lia. ring. }
  assert (E : round_pos a 1 = dec_round (a * 10 ^ (5 - X)) X).
  { rewrite <- (round_dec_same a 0) by (try lia; exact HU). unfold round_dec. cbn [Z.leb Z.compare].
    rewrite Z.mul_1_r. reflexivity. }
  pose proof (U_pos 0 ltac:(lia)) as U0.
  assert (HN : 0 <= a * U 0) by nia.
  assert (M : round_pos a 1 <= max_mag).
  { rewrite E. unfold dec_round. rewrite <- HU. apply round_u_le; [exact HN|exact P400_pos|unfold max_mag; lia|].
    apply U_le_max; [lia|]. change (10 ^ 0) with 1. rewrite Z.mul_1_r.
    apply Z.le_trans with 1000000; [lia|apply Z.leb_le; vm_compute; reflexivity]. }
  assert (N : 1 <= round_pos a 1).
  { rewrite E. unfold dec_round. rewrite <- HU. apply round_u_ge; [exact HN|exact P400_pos|lia|].
    change (mag_units 1) with 1. rewrite Z.mul_1_l.
    assert (K : P400 <= U 0) by (apply Z.leb_le; vm_compute; reflexivity). nia. }
  split; [lia|]. rewrite E. apply sci6_dec_round; [exact HD|lia|].
  rewrite <- E. unfold max_mag, inf_mag in *. lia.
Qed.

Lemma show_double_int : forall t, -1000000 < t < 1000000 -> show_double (dbl_of_int t) = show_Z t.
Proof.
  intros t Ht. destruct (Z.eq_dec t 0) as [->|Hz]; [vm_compute; reflexivity|].
  destruct (whole_mag (Z.abs t) ltac:(lia)) as (X & HX & B & M & E).
  unfold dbl_of_int, show_double. rewrite dneg_mk, dmag_mk by (unfold max_mag, inf_mag in *; lia).
  unfold show_mag. replace (round_pos (Z.abs t) 1 =? 0) with false by (symmetry; apply Z.eqb_neq; lia).
  replace (round_pos (Z.abs t) 1 =? inf_mag) with false by (symmetry; apply Z.eqb_neq; unfold max_mag, inf_mag in *; lia).
  replace (inf_mag <? round_pos (Z.abs t) 1) with false by (symmetry; apply Z.ltb_ge; unfold max_mag, inf_mag in *; lia).
  rewrite E, show_g_whole by assumption. unfold show_Z. destruct (t <? 0) eqn:N.
  - apply Z.ltb_lt in N. rewrite Z.abs_neq by lia. reflexivity.
  - apply Z.ltb_ge in N. rewrite Z.abs_eq by lia. reflexivity.
Qed.
