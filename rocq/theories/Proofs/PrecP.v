(** Printing with a given number of digits, and reading back. *)

From Verif Require Import Model.Save Model.Precision Proofs.BytesP Proofs.RtBase Proofs.DblP Proofs.DecP Proofs.ShowP
  Proofs.RoundP.

Ltac Zify.zify_post_hook ::= idtac.

(** ** Digits *)

Lemma digits_val_lt : forall l, Forall digit l -> digits_val l < 10 ^ zlen l.
Proof.
  induction l as [|d l IH]; intro H; [reflexivity|]. inversion H as [|? ? Hd Hl]; subst.
  rewrite digits_val_cons, zlen_cons. specialize (IH Hl). unfold digit in Hd. pose proof (zlen_nonneg _ l).
  replace (zlen l + 1) with (Z.succ (zlen l)) by lia. rewrite Z.pow_succ_r by lia. nia.
Qed.

(** [dec_digits] has no leading zero. *)
Lemma digits_rev_lead : forall f n, 0 < n < 10 ^ Z.of_nat f ->
  exists d ds, rev (digits_rev f n) = d :: ds /\ 1 <= d.
Proof.
  induction f as [|f IH]; intros n H; [cbn in H; lia|]. cbn [digits_rev].
  destruct (n <? 10) eqn:E.
  - exists n, []. split; [reflexivity|lia].
  - apply Z.ltb_ge in E. cbn [rev]. destruct (IH (n / 10)) as (d & ds & -> & Hd).
    { split; [apply Z.div_str_pos; lia|]. apply Z.div_lt_upper_bound; [lia|].
      rewrite Nat2Z.inj_succ, Z.pow_succ_r in H by lia. lia. }
    exists d, (ds ++ [n mod 10]). split; [reflexivity|exact Hd].
Qed.

Lemma pow10_between : forall a b x, 0 <= a -> 0 <= b -> 10 ^ a <= x < 10 ^ (a + 1) ->
  10 ^ b <= x < 10 ^ (b + 1) -> a = b.
Proof.
  intros a b x Ha Hb H1 H2.
  assert (a < b + 1) by (apply (Z.pow_lt_mono_r_iff 10); lia).
  assert (b < a + 1) by (apply (Z.pow_lt_mono_r_iff 10); lia). lia.
Qed.

Lemma dec_digits_len : forall n D, 1 <= n -> 10 ^ (n - 1) <= D < 10 ^ n -> zlen (dec_digits D) = n.
Proof.
  intros n D Hn HD. assert (P : 0 < 10 ^ (n - 1)) by (apply Z.pow_pos_nonneg; lia).
  pose proof (dec_digits_digit D ltac:(lia)) as F. pose proof (dec_digits_val D ltac:(lia)) as V.
  unfold dec_digits in *. destruct (digits_rev_lead (S (Z.to_nat (Z.log2 D))) D) as (d & ds & E & Hd).
  { split; [lia|]. rewrite Nat2Z.inj_succ, Z2Nat.id by apply Z.log2_nonneg.
    assert (Hl := Z.log2_spec D ltac:(lia)).
    apply Z.lt_le_trans with (2 ^ Z.succ (Z.log2 D)); [lia|]. apply Z.pow_le_mono_l. lia. }
  rewrite E in *. pose proof (digits_val_lt _ F) as B. pose proof (Forall_inv_tail F) as Fd.
  pose proof (digits_val_nonneg _ Fd) as N. rewrite V in B. rewrite digits_val_cons in V.
  rewrite zlen_cons in *. pose proof (zlen_nonneg _ ds).
  assert (0 < 10 ^ zlen ds) by (apply Z.pow_pos_nonneg; lia).
  assert (zlen ds = n - 1); [|lia]. apply (pow10_between _ _ D); try lia; [split; [nia|exact B]|].
  replace (n - 1 + 1) with n by lia. lia.
Qed.

(** The stripped digits of D: non-empty, worth D / 10^(number of zeros removed). *)
Lemma stripped_n : forall n D, 1 <= n -> 10 ^ (n - 1) <= D < 10 ^ n ->
  exists d ds, strip_zeros (dec_digits D) = d :: ds /\ digit d /\ Forall digit ds /\
    zlen ds <= n - 1 /\ digits_val (d :: ds) * 10 ^ (n - 1 - zlen ds) = D.
Proof.
  intros n D Hn HD. pose proof (dec_digits_len n D Hn HD) as L. destruct (strip_zeros_spec (dec_digits D)) as (k & E).
  assert (P : 0 < 10 ^ (n - 1)) by (apply Z.pow_pos_nonneg; lia).
  pose proof (dec_digits_digit D ltac:(lia)) as F. pose proof (dec_digits_val D ltac:(lia)) as V.
  rewrite E in F, V, L. apply Forall_app in F. destruct F as [F _].
  destruct (strip_zeros (dec_digits D)) as [|d ds].
  - cbn [app] in V. rewrite digits_val_zeros in V. lia.
  - pose proof (Forall_inv F) as Hd. pose proof (Forall_inv_tail F) as Hds. exists d, ds.
    rewrite zlen_app, zlen_cons in L. unfold zlen at 2 in L. rewrite repeat_length in L.
    repeat split; auto; try apply Hd; [lia|].
    rewrite digits_val_app, digits_val_zeros, Z.add_0_r in V.
    replace (n - 1 - zlen ds) with (zlen (repeat 0 k)); [exact V|].
    unfold zlen at 1. rewrite repeat_length. lia.
Qed.


(** ** Text *)

Definition same10 (m e D k : Z) : Prop :=
  forall J, 0 <= e + J -> 0 <= k + J -> m * 10 ^ (e + J) = D * 10 ^ (k + J).

Lemma show_gn_parses : forall n D X, 1 <= n -> 10 ^ (n - 1) <= D < 10 ^ n ->
  exists m e, parses (show_gn n D X) m e /\ 0 <= m /\ same10 m e D (X - (n - 1)).
Proof.
  intros n D X Hn HD.
  destruct (stripped_n n D Hn HD) as (d & ds & E & Hd & Hds & HL & HV).
  assert (HF : Forall digit (d :: ds)) by (constructor; assumption).
  pose proof (digits_val_nonneg _ HF) as Hm.
  pose proof (zlen_nonneg _ ds) as HL0.
  set (m := digits_val (d :: ds)) in *.
  assert (HU : forall e, e = X - zlen ds -> same10 m e D (X - (n - 1))).
  { intros e -> J J1 J2. rewrite <- HV, <- Z.mul_assoc, <- Z.pow_add_r by lia. do 2 f_equal. lia. }
  unfold show_gn. rewrite E.
  destruct ((-4 <=? X) && (X <? n)) eqn:EX.
  - apply andb_true_iff in EX. rewrite Z.leb_le, Z.ltb_lt in EX.
    destruct (X <? 0) eqn:EN.
    + (* 0.000ddd *)
      apply Z.ltb_lt in EN.
      exists m, (- zlen (repeat 0 (Z.to_nat (- X - 1)) ++ d :: ds)).
      assert (EL : zlen (repeat 0 (Z.to_nat (- X - 1)) ++ d :: ds) = - X + zlen ds).
      { rewrite zlen_app, zlen_cons. unfold zlen at 1. rewrite repeat_length. lia. }
      split; [split|split].
      * do 2 eexists. split; [reflexivity|discriminate].
      * intros b Hb. rewrite chrs_repeat0, <- chrs_app.
        change (x30 :: x2e :: chrs (repeat 0 (Z.to_nat (- X - 1)) ++ d :: ds))
          with (chrs [0] ++ x2e :: chrs (repeat 0 (Z.to_nat (- X - 1)) ++ d :: ds)).
        rewrite <- app_assoc. cbn [app].
        assert (F0 : Forall digit [0]) by (constructor; [unfold digit; lia|constructor]).
        assert (F1 : Forall digit (repeat 0 (Z.to_nat (- X - 1)) ++ d :: ds))
          by (apply Forall_app; split; [apply Forall_repeat0|exact HF]).
        eexists. split; [apply (scan_frac [0]); assumption|].
        rewrite parse_frac by assumption. f_equal. f_equal.
        cbn [app]. rewrite digits_val_cons. rewrite digits_val_app, digits_val_zeros.
        rewrite !Z.mul_0_l, !Z.add_0_l. reflexivity.
      * exact Hm.
      * apply HU. rewrite EL. lia.
    + (* ddd000 or dd.ddd *)
      apply Z.ltb_ge in EN.
      destruct (List.length (d :: ds) <=? Z.to_nat (X + 1))%nat eqn:EK.
      * apply Nat.leb_le in EK. cbn [List.length] in EK.
        set (z := (Z.to_nat (X + 1) - List.length (d :: ds))%nat).
        exists (m * 10 ^ zlen (repeat 0 z)), 0.
        assert (EZ : zlen (repeat 0 z) = X - zlen ds).
        { unfold zlen. rewrite repeat_length. unfold z. cbn [List.length]. lia. }
        assert (F1 : Forall digit (d :: ds ++ repeat 0 z)).
        { constructor; [exact Hd|]. apply Forall_app. split; [exact Hds|apply Forall_repeat0]. }
        assert (0 <= 10 ^ zlen (repeat 0 z)) by (apply Z.pow_nonneg; lia).
        split; [split|split].
        -- do 2 eexists. split; [reflexivity|apply digit_chr_of; exact Hd].
        -- intros b Hb. rewrite chrs_repeat0, <- chrs_app. cbn [app].
           eexists. split; [apply scan_int; assumption|].
           rewrite parse_int by assumption. f_equal. f_equal.
           change (d :: ds ++ repeat 0 z) with ((d :: ds) ++ repeat 0 z).
           rewrite digits_val_app, digits_val_zeros, Z.add_0_r. reflexivity.
        -- nia.
        -- intros J J1 J2. rewrite EZ. rewrite <- Z.mul_assoc, <- Z.pow_add_r by (unfold zlen in *; lia).
           replace (X - zlen ds + (0 + J)) with (X - zlen ds + J) by lia.
           apply (HU _ eq_refl J); unfold zlen in *; lia.
      * apply Nat.leb_gt in EK. cbn [List.length] in EK.
        destruct (Z.to_nat (X + 1)) as [|k] eqn:Ek; [lia|].
        exists m, (- zlen (skipn k ds)).
        assert (EL : zlen (skipn k ds) = zlen ds - X).
        { unfold zlen. rewrite skipn_length. lia. }
        assert (F1 : Forall digit (d :: firstn k ds)).
        { constructor; [exact Hd|]. apply Forall_forall. intros x Hx.
          rewrite Forall_forall in Hds. apply Hds. rewrite <- (firstn_skipn k ds). apply in_or_app. left. exact Hx. }
        assert (F2 : Forall digit (skipn k ds)).
        { apply Forall_forall. intros x Hx.
          rewrite Forall_forall in Hds. apply Hds. rewrite <- (firstn_skipn k ds). apply in_or_app. right. exact Hx. }
        split; [split|split].
        -- do 2 eexists. split; [reflexivity|apply digit_chr_of; exact Hd].
        -- intros b Hb. cbn [firstn skipn]. rewrite <- app_assoc. cbn [app].
           eexists. split; [apply scan_frac; assumption|].
           rewrite parse_frac by assumption. f_equal. f_equal.
           cbn [app]. rewrite firstn_skipn. reflexivity.
        -- exact Hm.
        -- apply HU. rewrite EL. lia.
  - (* scientific *)
    destruct ds as [|d1 ds].
    + exists m, X. split; [split|split].
      * do 2 eexists. split; [reflexivity|apply digit_chr_of; exact Hd].
      * intros b Hb. change (digit_chr d :: show_exp X) with (chrs [d] ++ show_exp X).
        rewrite <- app_assoc. eexists. split.
        -- rewrite scan_digits by assumption. rewrite scan_exp by exact Hb. reflexivity.
        -- cbn [fst]. apply parse_sci1. exact Hd.
      * exact Hm.
      * apply HU. rewrite zlen_nil. lia.
    + exists m, (X - zlen (d1 :: ds)). split; [split|split].
      * do 2 eexists. split; [reflexivity|apply digit_chr_of; exact Hd].
      * intros b Hb.
        change (digit_chr d :: x2e :: chrs (d1 :: ds) ++ show_exp X)
          with (chrs [d] ++ x2e :: chrs (d1 :: ds) ++ show_exp X).
        rewrite <- app_assoc. cbn [app]. eexists. split.
        -- rewrite scan_digits by (constructor; [exact Hd|constructor]). rewrite scan_dot.
           rewrite <- app_assoc. rewrite scan_digits by exact Hds.
           rewrite scan_exp by exact Hb. reflexivity.
        -- cbn [fst]. apply parse_sci; [exact HF|discriminate].
      * exact Hm.
      * apply HU. reflexivity.
Qed.

(** ** The digits *)

Lemma dec_exp_J : forall u J, in_range u -> 0 <= J -> 0 <= dec_exp u + J ->
  2 ^ 1074 * 10 ^ (dec_exp u + J) <= u * 10 ^ J < 2 ^ 1074 * 10 ^ (dec_exp u + 1 + J).
Proof.
  intros u J Hu HJ HX. destruct (dec_exp_spec u Hu) as (A & B & C). unfold U, P400 in *.
  generalize dependent (dec_exp u). intros X HX A B C. generalize dependent (2 ^ 1074). intros T B C.
  assert (P : 0 < 10 ^ 400) by reflexivity. assert (PJ : 0 < 10 ^ J) by (apply Z.pow_pos_nonneg; lia).
  assert (E1 : 10 ^ (X + J) * 10 ^ 400 = 10 ^ (X + 400) * 10 ^ J) by (rewrite <- !Z.pow_add_r by lia; f_equal; lia).
  assert (E2 : 10 ^ (X + 1 + J) * 10 ^ 400 = 10 ^ (X + 1 + 400) * 10 ^ J) by (rewrite <- !Z.pow_add_r by lia; f_equal; lia).
  revert B C E1 E2 P. generalize (10 ^ 400). intros p B C E1 E2 P. split.
  - apply (Z.mul_le_mono_pos_r _ _ p P). rewrite <- (Z.mul_assoc T), E1. nia.
  - apply (Z.mul_lt_mono_pos_r p _ _ P). rewrite <- (Z.mul_assoc T), E2. nia.
Qed.

Lemma sci_spec : forall n u D X, 1 <= n -> in_range u -> sci n u = (D, X) ->
  10 ^ (n - 1) <= D < 10 ^ n /\
  forall J, 0 <= J -> 0 <= X - (n - 1) + J ->
    2 * 10 ^ (n - 1) * Z.abs (D * 10 ^ (X - (n - 1) + J) * 2 ^ 1074 - u * 10 ^ J) <= u * 10 ^ J.
Proof.
  intros n u D X Hn Hu. unfold sci. pose proof (dec_exp_J u) as HE.
  generalize dependent (dec_exp u). intros E HE.
  set (k := E - (n - 1)). set (j := Z.max 0 (- k)).
  assert (Hj : 0 <= j /\ 0 <= k + j) by (unfold j; lia). clearbody j.
  destruct Hj as (Hj & Hkj).
  assert (T0 : 0 < 2 ^ 1074) by reflexivity. generalize dependent (2 ^ 1074). intros T HE T0.
  pose proof (HE j Hu Hj ltac:(unfold k in *; lia)) as HB.
  assert (PK : 0 < 10 ^ (k + j)) by (apply Z.pow_pos_nonneg; lia).
  assert (PN : 0 < 10 ^ (n - 1)) by (apply Z.pow_pos_nonneg; lia).
  assert (EN : 10 ^ n = 10 * 10 ^ (n - 1)).
  { replace n with (Z.succ (n - 1)) at 1 by lia. apply Z.pow_succ_r. lia. }
  assert (E1 : 10 ^ (E + j) = 10 ^ (n - 1) * 10 ^ (k + j)).
  { rewrite <- Z.pow_add_r by lia. f_equal. unfold k. lia. }
  assert (E2 : 10 ^ (E + 1 + j) = 10 ^ n * 10 ^ (k + j)).
  { rewrite <- Z.pow_add_r by lia. f_equal. unfold k. lia. }
  rewrite E1, E2 in HB.
  assert (TK : 0 < T * 10 ^ (k + j)) by nia.
  set (D0 := rne_div (u * 10 ^ j) (T * 10 ^ (k + j))).
  pose proof (rne_div_err (u * 10 ^ j) _ TK) as R. fold D0 in R.
  assert (L : 10 ^ (n - 1) <= D0) by (apply rne_div_lower; [exact TK|nia]).
  assert (B : D0 <= 10 ^ n) by (apply rne_div_upper; [exact TK|nia]).
  clearbody D0.
  assert (G : forall J, 0 <= J -> 0 <= k + J ->
    2 * 10 ^ (n - 1) * Z.abs (D0 * 10 ^ (k + J) * T - u * 10 ^ J) <= u * 10 ^ J).
  { intros J HJ HkJ. pose proof (HE J Hu HJ ltac:(unfold k in *; lia)) as [HB' _].
    assert (E3 : 10 ^ (E + J) = 10 ^ (n - 1) * 10 ^ (k + J)).
    { rewrite <- Z.pow_add_r by lia. f_equal. unfold k. lia. }
    rewrite E3 in HB'.
    assert (PJ : 0 < 10 ^ J) by (apply Z.pow_pos_nonneg; lia).
    assert (Pj : 0 < 10 ^ j) by (apply Z.pow_pos_nonneg; lia).
    assert (PKJ : 0 < 10 ^ (k + J)) by (apply Z.pow_pos_nonneg; lia).
    assert (X1 : 10 ^ (k + J) * 10 ^ j = 10 ^ (k + j) * 10 ^ J) by (rewrite <- !Z.pow_add_r by lia; f_equal; lia).
    assert (R' : 2 * Z.abs (D0 * 10 ^ (k + J) * T - u * 10 ^ J) <= T * 10 ^ (k + J)).
    { apply (Z.mul_le_mono_pos_r _ _ (10 ^ j) Pj).
      replace (T * 10 ^ (k + J) * 10 ^ j) with (T * 10 ^ (k + j) * 10 ^ J) by (rewrite <- !(Z.mul_assoc T), X1; reflexivity).
      assert (X2 : (D0 * 10 ^ (k + J) * T - u * 10 ^ J) * 10 ^ j = (D0 * (T * 10 ^ (k + j)) - u * 10 ^ j) * 10 ^ J).
      { replace ((D0 * 10 ^ (k + J) * T - u * 10 ^ J) * 10 ^ j)
          with (D0 * T * (10 ^ (k + J) * 10 ^ j) - u * 10 ^ J * 10 ^ j) by ring. rewrite X1. ring. }
      rewrite <- Z.mul_assoc, <- (Z.abs_eq (10 ^ j)), <- Z.abs_mul, X2, Z.abs_mul, (Z.abs_eq (10 ^ J)) by lia.
      rewrite Z.mul_assoc. apply Z.mul_le_mono_nonneg_r; lia. }
    nia. }
  destruct (D0 =? 10 ^ n) eqn:ED; intro Q; injection Q as <- <-.
  - apply Z.eqb_eq in ED. split; [lia|]. intros J HJ HkJ.
    destruct (Z_le_gt_dec 0 (k + J)) as [Y|Y].
    + replace (10 ^ (n - 1) * 10 ^ (E + 1 - (n - 1) + J)) with (D0 * 10 ^ (k + J)); [apply G; assumption|].
      rewrite ED, <- !Z.pow_add_r by lia. f_equal. unfold k. lia.
    + (* multiply by 10 *)
      pose proof (G (J + 1) ltac:(lia) ltac:(unfold k in *; lia)) as G1.
      assert (Y1 : D0 * 10 ^ (k + (J + 1)) = 10 * (10 ^ (n - 1) * 10 ^ (E + 1 - (n - 1) + J))).
      { rewrite ED, EN, <- Z.mul_assoc. do 3 f_equal. unfold k. lia. }
      rewrite Y1 in G1. replace (10 ^ (J + 1)) with (10 * 10 ^ J) in G1
        by (rewrite Z.pow_add_r by lia; change (10 ^ 1) with 10; lia).
      set (Q := 10 ^ (n - 1) * 10 ^ (E + 1 - (n - 1) + J)) in *.
      replace (10 * Q * T - u * (10 * 10 ^ J)) with (10 * (Q * T - u * 10 ^ J)) in G1 by ring.
      rewrite Z.abs_mul in G1. change (Z.abs 10) with 10 in G1. nia.
  - apply Z.eqb_neq in ED. split; [lia|]. exact G.
Qed.

(** ** Neighbouring doubles are far enough apart *)

Lemma mag_gap : forall a b, 0 <= a -> 0 <= b -> a <> b ->
  mag_units a < 10 ^ 16 * Z.abs (mag_units b - mag_units a).
Proof.
  assert (G : forall a, 0 <= a -> mag_units (a + 1) < 10 ^ 16 * (mag_units (a + 1) - mag_units a)).
  { intros a Ha. destruct (mag_units_decompose a Ha) as (s & q & -> & Hs & Hq & Hc & E).
    rewrite E. rewrite <- Z.add_assoc. rewrite mag_units_compose by lia.
    assert (0 < 2 ^ s) by (apply Z.pow_pos_nonneg; lia). change (10 ^ 16) with 10000000000000000.
    unfold two53 in Hq. nia. }
  assert (M : forall a b, 0 <= a <= b -> mag_units a <= mag_units b).
  { intros a b H. destruct (Z.eq_dec a b) as [->|N]; [lia|]. apply Z.lt_le_incl, mag_units_mono. lia. }
  intros a b Ha Hb N. change (10 ^ 16) with 10000000000000000 in *.
  pose proof (mag_units_nonneg a Ha). pose proof (mag_units_nonneg b Hb).
  destruct (Z_lt_le_dec a b) as [L|L].
  - pose proof (G a Ha) as G1. pose proof (M (a + 1) b ltac:(lia)). pose proof (mag_units_mono a b ltac:(lia)). lia.
  - assert (L' : 0 <= a - 1) by lia. pose proof (G (a - 1) L') as G1. replace (a - 1 + 1) with a in G1 by lia.
    pose proof (M b (a - 1) ltac:(lia)). pose proof (mag_units_mono (a - 1) a ltac:(lia)). lia.
Qed.

Lemma round_near : forall a N d, 0 <= a -> 0 <= N -> 0 < d ->
  2 * 10 ^ 16 * Z.abs (N - mag_units a * d) <= mag_units a * d -> round_u N d = a.
Proof.
  intros a N d Ha HN Hd H. destruct (Z.eq_dec (round_u N d) a) as [E|NE]; [exact E|exfalso].
  pose proof (round_u_nonneg N d HN Hd) as H0.
  pose proof (mag_gap a (round_u N d) Ha H0 ltac:(congruence)) as G.
  assert (C : Z.abs (mag_units (round_u N d) * d - N) <= Z.abs (mag_units a * d - N)).
  { destruct (round_u_closest N d a HN Hd Ha) as [C|[C|[C _]]]; [lia|congruence|lia]. }
  change (10 ^ 16) with 10000000000000000 in *. nia.
Qed.

(** ** Reading back *)

Lemma show_gn_round : forall n a D X, 17 <= n -> 0 < a < inf_mag -> sci n (mag_units a) = (D, X) ->
  exists m e, parses (show_gn n D X) m e /\ round_dec m e = a.
Proof.
  intros n a D X Hn Ha E.
  destruct (sci_spec n _ D X ltac:(lia) (mag_units_range a Ha) E) as (HD & HE).
  destruct (show_gn_parses n D X ltac:(lia) HD) as (m & e & HP & Hm & HS).
  exists m, e. split; [exact HP|].
  assert (P16 : 10 ^ 16 <= 10 ^ (n - 1)) by (apply Z.pow_le_mono_r; lia).
  pose proof (mag_units_pos a ltac:(lia)) as Hu. revert HE. generalize (10 ^ (n - 1)) P16. intros pn Hpn HE.
  assert (G : forall J, 0 <= J -> 0 <= X - (n - 1) + J -> 0 <= e + J ->
    2 * 10 ^ 16 * Z.abs (m * 10 ^ (e + J) * 2 ^ 1074 - mag_units a * 10 ^ J) <= mag_units a * 10 ^ J).
  { intros J J1 J2 J3. specialize (HE J J1 J2). rewrite HS by lia. 
    revert HE. generalize (Z.abs (D * 10 ^ (X - (n - 1) + J) * 2 ^ 1074 - mag_units a * 10 ^ J)) (Z.abs_nonneg (D * 10 ^ (X - (n - 1) + J) * 2 ^ 1074 - mag_units a * 10 ^ J)).
    intros z Hz HE. change (10 ^ 16) with 10000000000000000 in *. nia. }
  assert (T0 : 0 < 2 ^ 1074) by reflexivity.
  unfold round_dec. destruct (0 <=? e) eqn:Ee.
  - apply Z.leb_le in Ee. rewrite round_pos_u.
    assert (P : 0 <= 10 ^ e) by (apply Z.pow_nonneg; lia).
    pose proof (G (Z.max 0 (n - 1 - X)) ltac:(lia) ltac:(lia) ltac:(lia)) as G1.
    set (J := Z.max 0 (n - 1 - X)) in *. assert (HJ : 0 <= J) by lia. clearbody J.
    revert G1 T0. generalize (2 ^ 1074). intros T G1 T0.
    apply round_near; [lia|nia|lia|]. rewrite Z.mul_1_r.
    assert (PJ : 0 < 10 ^ J) by (apply Z.pow_pos_nonneg; lia).
    rewrite Z.pow_add_r in G1 by lia.
    replace (m * (10 ^ e * 10 ^ J) * T - mag_units a * 10 ^ J) with ((m * 10 ^ e * T - mag_units a) * 10 ^ J) in G1 by ring.
    rewrite Z.abs_mul, (Z.abs_eq (10 ^ J)) in G1 by lia.
    apply (Z.mul_le_mono_pos_r _ _ (10 ^ J) PJ). rewrite <- Z.mul_assoc. exact G1.
  - apply Z.leb_gt in Ee. rewrite round_pos_u.
    pose proof (G (Z.max (- e) (n - 1 - X)) ltac:(lia) ltac:(lia) ltac:(lia)) as G1.
    set (J := Z.max (- e) (n - 1 - X)) in *. assert (HJ : 0 <= J + e) by lia. clearbody J.
    revert G1 T0. generalize (2 ^ 1074). intros T G1 T0.
    assert (PE : 0 < 10 ^ (- e)) by (apply Z.pow_pos_nonneg; lia).
    apply round_near; [lia|nia|lia|].
    assert (PJ : 0 < 10 ^ (J + e)) by (apply Z.pow_pos_nonneg; lia).
    replace (10 ^ J) with (10 ^ (- e) * 10 ^ (J + e)) in G1 by (rewrite <- Z.pow_add_r by lia; f_equal; lia).
    rewrite (Z.add_comm e J) in G1.
    replace (m * 10 ^ (J + e) * T - mag_units a * (10 ^ (- e) * 10 ^ (J + e)))
      with ((m * T - mag_units a * 10 ^ (- e)) * 10 ^ (J + e)) in G1 by ring.
    rewrite Z.abs_mul, (Z.abs_eq (10 ^ (J + e))) in G1 by lia.
    apply (Z.mul_le_mono_pos_r _ _ (10 ^ (J + e)) PJ). rewrite !Z.mul_assoc in *. exact G1.
Qed.

(** Whatever digits are printed, what is read is the double nearest to them, if
    that is finite. *)
Lemma reads_shown : forall x t m e, parses t m e -> size_ok x -> 0 <= round_dec m e < inf_mag ->
  reads extract_double ((if dneg x then [x2d] else []) ++ t) (mk_dbl (dneg x) (round_dec m e)).
Proof.
  intros x t m e HP Hx HB. destruct HP as [(c & t' & Et & Hc) HP].
  split.
  - destruct (dneg x); cbn [app].
    + do 2 eexists. split; reflexivity.
    + exists c, t'. split; [exact Et|]. destruct (is_ws c) eqn:W; [|reflexivity].
      apply ws_not_digit in W. congruence.
  - intros b Hb. unfold extract_double.
    assert (ET : take_sign (((if dneg x then [x2d] else []) ++ t) ++ b) = (dneg x, t ++ b)).
    { destruct (dneg x); [reflexivity|]. cbn [app]. rewrite Et. cbn [app].
      destruct c; try reflexivity; exfalso; apply Hc; reflexivity. }
    rewrite ET. destruct (HP b Hb) as (t2 & -> & ->).
    replace (inf_mag <=? round_dec m e) with false by (symmetry; apply Z.leb_gt; lia). reflexivity.
Qed.

(** 17 digits are enough. *)
Theorem reads_prec : forall p x, 17 <= p -> size_ok x -> is_finite x = true ->
  reads extract_double (show_prec p x) x.
Proof.
  intros p x Hp Hx Hf. unfold is_finite in Hf. apply Z.ltb_lt in Hf.
  pose proof (dmag_range x Hx) as HR. unfold show_prec.
  assert (ES : signif p = p).
  { unfold signif. replace (p <? 0) with false by (symmetry; apply Z.ltb_ge; lia).
    replace (p =? 0) with false by (symmetry; apply Z.eqb_neq; lia). reflexivity. }
  rewrite ES.
  assert (Q : exists m e, parses (show_magn p (dmag x)) m e /\ round_dec m e = dmag x).
  { unfold show_magn. destruct (dmag x =? 0) eqn:E0.
    - apply Z.eqb_eq in E0. exists 0, 0. split; [|rewrite E0; reflexivity].
      split; [do 2 eexists; split; [reflexivity|discriminate]|].
      intros b Hb. eexists. split; [apply (scan_int [0]); [constructor; [unfold digit; lia|constructor]|exact Hb]|].
      reflexivity.
    - apply Z.eqb_neq in E0.
      replace (dmag x =? inf_mag) with false by (symmetry; apply Z.eqb_neq; lia).
      replace (inf_mag <? dmag x) with false by (symmetry; apply Z.ltb_ge; lia).
      destruct (sci p (mag_units (dmag x))) as [D X] eqn:E.
      apply show_gn_round; [exact Hp|lia|exact E]. }
  destruct Q as (m & e & HP & ER).
  pose proof (reads_shown x _ m e HP Hx ltac:(lia)) as R. rewrite ER, mk_dbl_eta in R. exact R.
Qed.

(** ** Precision 6 *)

Lemma sci_six : forall u, in_range u -> sci 6 u = sci6 u.
Proof.
  intros u Hu. unfold sci, sci6. pose proof (dec_exp_range u Hu) as R.
  generalize dependent (dec_exp u). intros X R. change (6 - 1) with 5.
  set (k := X - 5). set (j := Z.max 0 (- k)).
  assert (E : rne_div (u * 10 ^ j) (2 ^ 1074 * 10 ^ (k + j)) = rne_div (u * 10 ^ 400) (2 ^ 1074 * 10 ^ (X + 395))).
  { assert (P : 0 < 10 ^ (400 - j)) by (apply Z.pow_pos_nonneg; unfold j, k; lia).
    assert (Q : 0 < 10 ^ (k + j)) by (apply Z.pow_pos_nonneg; unfold j, k; lia).
    rewrite <- (rne_div_scale (10 ^ (400 - j))) by first [exact P|apply Z.mul_pos_pos; [reflexivity|exact Q]].
    f_equal.
    - rewrite Z.mul_comm, <- Z.mul_assoc, <- Z.pow_add_r by (unfold j, k; lia). do 2 f_equal. lia.
    - rewrite Z.mul_comm, <- Z.mul_assoc, <- Z.pow_add_r by (unfold j, k; lia). do 2 f_equal. unfold k. lia. }
  rewrite E. reflexivity.
Qed.

Lemma digits_val_inj : forall a b, Forall digit a -> Forall digit b -> List.length a = List.length b ->
  digits_val a = digits_val b -> a = b.
Proof.
  induction a as [|x a IH]; intros [|y b] Fa Fb L E; try discriminate; [reflexivity|].
  injection L as L. inversion Fa as [|? ? Hx Fa']; inversion Fb as [|? ? Hy Fb']; subst.
  rewrite !digits_val_cons in E. unfold zlen in E. rewrite L in E.
  pose proof (digits_val_lt a Fa') as B1. pose proof (digits_val_lt b Fb') as B2.
  pose proof (digits_val_nonneg a Fa'). pose proof (digits_val_nonneg b Fb'). unfold zlen in B1, B2. rewrite L in B1.
  assert (x = y) by nia. subst y. f_equal. apply IH; auto. lia.
Qed.

Theorem show_prec_six : forall x, size_ok x -> show_prec 6 x = show_double x.
Proof.
  intros x Hx. unfold show_prec, show_double. f_equal. change (signif 6) with 6. unfold show_magn, show_mag.
  destruct (dmag x =? 0) eqn:E0; [reflexivity|]. destruct (dmag x =? inf_mag) eqn:E1; [reflexivity|].
  destruct (inf_mag <? dmag x) eqn:E2; [reflexivity|].
  apply Z.eqb_neq in E0, E1. apply Z.ltb_ge in E2. pose proof (dmag_range x Hx) as HR.
  assert (Ha : 0 < dmag x < inf_mag) by lia. pose proof (mag_units_range _ Ha) as HU.
  rewrite sci_six by exact HU. destruct (sci6 (mag_units (dmag x))) as [D X] eqn:ES.
  destruct (sci6_spec _ _ _ HU ES) as (HD & _ & _).
  unfold show_gn, show_g. replace (dec_digits D) with (six_digits D); [reflexivity|].
  symmetry. apply digits_val_inj; [apply dec_digits_digit; lia|apply six_digits_digit; lia| |].
  - pose proof (dec_digits_len 6 D ltac:(lia)) as L. change (10 ^ (6 - 1)) with 100000 in L.
    change (10 ^ 6) with 1000000 in L. specialize (L ltac:(lia)). unfold zlen in L.
    change (List.length (six_digits D)) with 6%nat. lia.
  - rewrite dec_digits_val by lia. rewrite six_digits_val. reflexivity.
Qed.
