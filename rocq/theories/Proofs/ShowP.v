(** The printed text of a finite double is read back as the double nearest to
    its six-digit decimal. *)

From Verif Require Import Model.Save Proofs.BytesP Proofs.RtBase Proofs.DblP Proofs.DecP.

Ltac Zify.zify_post_hook ::= idtac.

(** ** Six digits *)

Lemma six_digits_digit : forall D, 0 <= D < 1000000 -> Forall digit (six_digits D).
Proof.
  intros D H. unfold six_digits.
  assert (M : forall a, digit (a mod 10)) by (intro a; apply Z.mod_pos_bound; lia).
  constructor; [|repeat (constructor; [apply M|]); constructor].
  split; [apply Z.div_pos; lia|]. apply Z.div_lt_upper_bound; lia.
Qed.

Lemma six_digits_val : forall D, digits_val (six_digits D) = D.
Proof.
  intro D. unfold six_digits, digits_val. cbn [fold_left].
  Ltac Zify.zify_post_hook ::= Z.div_mod_to_equations.
  lia.
Qed.
Ltac Zify.zify_post_hook ::= idtac.

Lemma strip0_spec : forall r, exists k, r = repeat 0 k ++ strip0 r.
Proof.
  induction r as [|d r IH]; [exists O; reflexivity|].
  destruct d; cbn [strip0]; try (exists O; reflexivity).
  destruct IH as (k & E). exists (S k). cbn [repeat app]. congruence.
Qed.

Lemma rev_repeat : forall A (x : A) k, rev (repeat x k) = repeat x k.
Proof.
  induction k; [reflexivity|]. cbn [repeat rev]. rewrite IHk.
  clear. induction k; [reflexivity|]. cbn [repeat app]. congruence.
Qed.

Lemma strip_zeros_spec : forall ds, exists k, ds = strip_zeros ds ++ repeat 0 k.
Proof.
  intro ds. destruct (strip0_spec (rev ds)) as (k & E). exists k.
  unfold strip_zeros. rewrite <- rev_repeat, <- rev_app_distr, <- E, rev_involutive. reflexivity.
Qed.

Lemma digits_val_zeros : forall k, digits_val (repeat 0 k) = 0.
Proof.
  induction k; [reflexivity|]. cbn [repeat]. rewrite digits_val_cons, IHk. lia.
Qed.

(** The stripped digits of D: non-empty, at most six, worth D / 10^(6-len). *)
Lemma stripped : forall D, 100000 <= D <= 999999 ->
  exists d ds, strip_zeros (six_digits D) = d :: ds /\ digit d /\ Forall digit ds /\
    zlen ds <= 5 /\ digits_val (d :: ds) * 10 ^ (5 - zlen ds) = D.
Proof.
  intros D HD. destruct (strip_zeros_spec (six_digits D)) as (k & E).
  pose proof (six_digits_digit D ltac:(lia)) as F. pose proof (six_digits_val D) as V.
  assert (L : zlen (six_digits D) = 6) by reflexivity.
  rewrite E in F, V, L. apply Forall_app in F. destruct F as [F _].
  destruct (strip_zeros (six_digits D)) as [|d ds].
  - cbn [app] in V. rewrite digits_val_zeros in V. lia.
  - pose proof (Forall_inv F) as Hd. pose proof (Forall_inv_tail F) as Hds. exists d, ds.
    rewrite zlen_app, zlen_cons in L. unfold zlen at 2 in L. rewrite repeat_length in L.
    repeat split; auto; try apply Hd; [lia|].
    rewrite digits_val_app, digits_val_zeros, Z.add_0_r in V.
    replace (5 - zlen ds) with (zlen (repeat 0 k)); [exact V|].
    unfold zlen at 1. rewrite repeat_length. lia.
Qed.

(** ** Scanning *)

Lemma scan_digits : forall ds fm fd fs b, Forall digit ds ->
  scan_float fm fd fs (chrs ds ++ b) =
  (chrs ds ++ fst (scan_float (match ds with [] => fm | _ => true end) fd fs b),
   snd (scan_float (match ds with [] => fm | _ => true end) fd fs b)).
Proof.
  unfold chrs. induction ds as [|d ds IH]; intros fm fd fs b H.
  - cbn [map app]. destruct (scan_float fm fd fs b); reflexivity.
  - inversion H as [|? ? Hd Hds]; subst. cbn [map app scan_float].
    rewrite is_digit_chr by exact Hd. rewrite IH by exact Hds.
    destruct ds; reflexivity.
Qed.

Lemma scan_stop : forall fm fd fs b, starts_ws b -> scan_float fm fd fs b = ([], b).
Proof.
  intros fm fd fs b H. destruct b as [|c b]; [contradiction|]. cbn in H.
  destruct c; try discriminate; reflexivity.
Qed.

Lemma chrs_repeat0 : forall k, repeat x30 k = chrs (repeat 0 k).
Proof. unfold chrs. induction k; [reflexivity|]. cbn [repeat map]. rewrite IHk. reflexivity. Qed.

Lemma chrs_app : forall a b, chrs (a ++ b) = chrs a ++ chrs b.
Proof. intros; unfold chrs; apply map_app. Qed.

Lemma Forall_repeat0 : forall k, Forall digit (repeat 0 k).
Proof. intro k. apply Forall_forall. intros x H. apply repeat_spec in H. subst. unfold digit. lia. Qed.

(** Digits only. *)
Lemma scan_int : forall ds b, Forall digit ds -> starts_ws b ->
  scan_float false false false (chrs ds ++ b) = (chrs ds, b).
Proof.
  intros ds b H Hb. rewrite scan_digits by exact H. rewrite scan_stop by exact Hb.
  cbn [fst snd]. rewrite app_nil_r. reflexivity.
Qed.

Lemma scan_dot : forall fm b, scan_float fm false false (x2e :: b) =
  (x2e :: fst (scan_float fm true false b), snd (scan_float fm true false b)).
Proof. intros. cbn [scan_float is_digit digit_of Byte.eqb andb negb orb]. destruct (scan_float fm true false b). reflexivity. Qed.

(** digits . digits *)
Lemma scan_frac : forall a ds b, Forall digit a -> Forall digit ds -> starts_ws b ->
  scan_float false false false (chrs a ++ x2e :: chrs ds ++ b) = (chrs a ++ x2e :: chrs ds, b).
Proof.
  intros a ds b Ha H Hb. rewrite scan_digits by exact Ha. rewrite scan_dot.
  rewrite scan_digits by exact H. rewrite scan_stop by exact Hb.
  cbn [fst snd]. rewrite app_nil_r. reflexivity.
Qed.

Lemma scan_plus : forall fd b, scan_float true fd false (x65 :: x2b :: b) =
  let (t, r) := scan_float true fd true b in (x65 :: x2b :: t, r).
Proof. intros []; reflexivity. Qed.

Lemma scan_minus : forall fd b, scan_float true fd false (x65 :: x2d :: b) =
  let (t, r) := scan_float true fd true b in (x65 :: x2d :: t, r).
Proof. intros []; reflexivity. Qed.

Lemma scan_exp : forall fd X b, starts_ws b ->
  scan_float true fd false (show_exp X ++ b) = (show_exp X, b).
Proof.
  intros fd X b Hb. unfold show_exp.
  set (l := if Z.abs X <? 10 then x30 :: show_nonneg (Z.abs X) else show_nonneg (Z.abs X)).
  assert (Hl : exists ds, l = chrs ds /\ Forall digit ds).
  { unfold l, show_nonneg. pose proof (dec_digits_digit (Z.abs X) ltac:(lia)) as F.
    destruct (Z.abs X <? 10).
    - exists (0 :: dec_digits (Z.abs X)). split; [reflexivity|]. constructor; [unfold digit; lia|exact F].
    - exists (dec_digits (Z.abs X)). split; [reflexivity|exact F]. }
  destruct Hl as (ds & -> & F).
  assert (E : scan_float true fd true (chrs ds ++ b) = (chrs ds, b)).
  { rewrite scan_digits by exact F. rewrite scan_stop by exact Hb.
    cbn [fst snd]. rewrite app_nil_r. reflexivity. }
  destruct (X <? 0); cbn [app].
  - rewrite scan_minus, E. reflexivity.
  - rewrite scan_plus, E. reflexivity.
Qed.

(** ** Parsing *)

Lemma take_digits_chrs : forall ds b, Forall digit ds ->
  match b with c :: _ => digit_of c = None | [] => True end ->
  take_digits (chrs ds ++ b) = (ds, b).
Proof. exact take_digits_app. Qed.

Lemma take_digits_chrs0 : forall ds, Forall digit ds -> take_digits (chrs ds) = (ds, []).
Proof. intros ds H. rewrite <- (app_nil_r (chrs ds)). apply take_digits_chrs; auto. Qed.

Lemma parse_exp_show : forall X, parse_exp (show_exp X) = Some X.
Proof.
  intro X. unfold show_exp.
  set (l := if Z.abs X <? 10 then x30 :: show_nonneg (Z.abs X) else show_nonneg (Z.abs X)).
  assert (Hl : exists d ds, l = chrs (d :: ds) /\ Forall digit (d :: ds) /\ digits_val (d :: ds) = Z.abs X).
  { unfold l, show_nonneg.
    destruct (show_nonneg_cons (Z.abs X)) as (d & ds & E & Hd & Hds); [lia|].
    pose proof (dec_digits_val (Z.abs X) ltac:(lia)) as V. rewrite E in *.
    destruct (Z.abs X <? 10).
    - exists 0, (d :: ds). repeat split; auto.
      constructor; [unfold digit; lia|]. constructor; assumption.
    - exists d, ds. repeat split; auto. }
  destruct Hl as (d & ds & -> & F & V). cbn [parse_exp].
  destruct (X <? 0) eqn:E.
  - apply Z.ltb_lt in E. cbn [take_sign]. rewrite take_digits_chrs0 by exact F.
    rewrite V. f_equal. lia.
  - apply Z.ltb_ge in E. cbn [take_sign]. rewrite take_digits_chrs0 by exact F.
    rewrite V. f_equal. lia.
Qed.

Lemma parse_int : forall d ds, Forall digit (d :: ds) ->
  parse_dec (chrs (d :: ds)) = Some (digits_val (d :: ds), 0).
Proof.
  intros d ds H. unfold parse_dec. rewrite take_digits_chrs0 by exact H.
  rewrite app_nil_r. reflexivity.
Qed.

Lemma parse_frac : forall d a ds, Forall digit (d :: a) -> Forall digit ds ->
  parse_dec (chrs (d :: a) ++ x2e :: chrs ds) =
  Some (digits_val ((d :: a) ++ ds), - zlen ds).
Proof.
  intros d a ds Ha H. unfold parse_dec. rewrite take_digits_chrs by (auto; reflexivity).
  rewrite take_digits_chrs0 by exact H. cbn [app parse_exp]. reflexivity.
Qed.

Lemma parse_sci : forall d ds X, Forall digit (d :: ds) -> ds <> [] ->
  parse_dec (chrs [d] ++ x2e :: chrs ds ++ show_exp X) =
  Some (digits_val (d :: ds), X - zlen ds).
Proof.
  intros d ds X H Hn. inversion H; subst. unfold parse_dec.
  rewrite take_digits_chrs by (auto; reflexivity).
  rewrite take_digits_chrs by (auto; reflexivity). cbn [app]. rewrite parse_exp_show. reflexivity.
Qed.

Lemma parse_sci1 : forall d X, digit d ->
  parse_dec (chrs [d] ++ show_exp X) = Some (digits_val [d], X).
Proof.
  intros d X H. unfold parse_dec. rewrite take_digits_chrs by (auto; reflexivity).
  change (show_exp X) with (x65 :: tl (show_exp X)) at 1. cbv beta iota zeta.
  change (x65 :: tl (show_exp X)) with (show_exp X).
  rewrite app_nil_r. rewrite parse_exp_show. rewrite zlen_nil, Z.sub_0_r. reflexivity.
Qed.

(** ** show_g *)

Definition parses (t : bytes) (m e : Z) : Prop :=
  (exists c t', t = c :: t' /\ digit_of c <> None) /\
  forall b, starts_ws b ->
    exists t', scan_float false false false (t ++ b) = (t', b) /\ parse_dec t' = Some (m, e).

Lemma digit_chr_of : forall d, digit d -> digit_of (digit_chr d) <> None.
Proof. intros d H. rewrite digit_of_chr by exact H. discriminate. Qed.

Lemma show_g_parses : forall D X, 100000 <= D <= 999999 -> -324 <= X <= 309 ->
  exists m e, parses (show_g D X) m e /\ 0 <= m /\ -400 <= e /\ m * U e = D * U (X - 5).
Proof.
  intros D X HD HX.
  destruct (stripped D HD) as (d & ds & E & Hd & Hds & HL & HV).
  assert (HF : Forall digit (d :: ds)) by (constructor; assumption).
  pose proof (digits_val_nonneg _ HF) as Hm.
  pose proof (zlen_nonneg _ ds) as HL0.
  set (m := digits_val (d :: ds)) in *.
  assert (HU : forall k, -390 <= k -> m * U k = D * U (k + zlen ds - 5)).
  { intros k Hk. rewrite <- HV. rewrite <- Z.mul_assoc. rewrite <- U_add by lia.
    do 2 f_equal. lia. }
  unfold show_g. rewrite E.
  destruct ((-4 <=? X) && (X <? 6)) eqn:EX.
  - apply andb_true_iff in EX. rewrite Z.leb_le, Z.ltb_lt in EX.
    destruct (X <? 0) eqn:EN.
    + (* 0.000ddd *)
      apply Z.ltb_lt in EN.
      exists m, (- zlen (repeat 0 (Z.to_nat (- X - 1)) ++ d :: ds)).
      assert (EL : zlen (repeat 0 (Z.to_nat (- X - 1)) ++ d :: ds) = - X + zlen ds).
      { rewrite zlen_app, zlen_cons. unfold zlen at 1. rewrite repeat_length. lia. }
      repeat split.
      * do 2 eexists. split; [reflexivity|discriminate].
      * intros b Hb. rewrite chrs_repeat0, <- chrs_app.
        change (x30 :: x2e :: chrs (repeat 0 (Z.to_nat (- X - 1)) ++ d :: ds))
          with (chrs [0] ++ x2e :: chrs (repeat 0 (Z.to_nat (- X - 1)) ++ d :: ds)).
        rewrite <- app_assoc. cbn [app].
        assert (F0 : Forall digit [0]) by (constructor; [unfold digit; lia|constructor]).
        assert (F1 : Forall digit (repeat 0 (Z.to_nat (- X - 1)) ++ d :: ds))
          by (apply Forall_app; split; [apply Forall_repeat0|exact HF]).
        eexists. split; [apply (scan_frac [0]); assumption|].
        rewrite parse_frac by assumption. f_equal. f_equal.
        cbn [app]. rewrite digits_val_cons. rewrite digits_val_app, digits_val_zeros.
        rewrite !Z.mul_0_l, !Z.add_0_l. reflexivity.
      * exact Hm.
      * lia.
      * rewrite EL. rewrite HU by lia. do 2 f_equal. lia.
    + (* ddd000 or dd.ddd *)
      apply Z.ltb_ge in EN.
      destruct (List.length (d :: ds) <=? Z.to_nat (X + 1))%nat eqn:EK.
      * apply Nat.leb_le in EK. cbn [List.length] in EK.
        set (z := (Z.to_nat (X + 1) - List.length (d :: ds))%nat).
        exists (m * 10 ^ zlen (repeat 0 z)), 0.
        assert (EZ : zlen (repeat 0 z) = X - zlen ds).
        { unfold zlen. rewrite repeat_length. unfold z. cbn [List.length]. lia. }
        assert (F1 : Forall digit (d :: ds ++ repeat 0 z)).
        { constructor; [exact Hd|]. apply Forall_app. split; [exact Hds|apply Forall_repeat0]. }
        assert (0 <= 10 ^ zlen (repeat 0 z)) by (apply Z.pow_nonneg; lia).
        repeat split.
        -- do 2 eexists. split; [reflexivity|apply digit_chr_of; exact Hd].
        -- intros b Hb. rewrite chrs_repeat0, <- chrs_app. cbn [app].
           eexists. split; [apply scan_int; assumption|].
           rewrite parse_int by assumption. f_equal. f_equal.
           change (d :: ds ++ repeat 0 z) with ((d :: ds) ++ repeat 0 z).
           rewrite digits_val_app, digits_val_zeros, Z.add_0_r. reflexivity.
        -- nia.
        -- lia.
        -- assert (zlen ds <= X) by (unfold zlen; lia).
           rewrite EZ. rewrite <- Z.mul_assoc. rewrite <- U_add by lia.
           rewrite HU by lia. do 2 f_equal. lia.
      * apply Nat.leb_gt in EK. cbn [List.length] in EK.
        destruct (Z.to_nat (X + 1)) as [|k] eqn:Ek; [lia|].
        exists m, (- zlen (skipn k ds)).
        assert (EL : zlen (skipn k ds) = zlen ds - X).
        { unfold zlen. rewrite skipn_length. lia. }
        assert (F1 : Forall digit (d :: firstn k ds)).
        { constructor; [exact Hd|]. apply Forall_forall. intros x Hx.
          rewrite Forall_forall in Hds. apply Hds. rewrite <- (firstn_skipn k ds). apply in_or_app. left. exact Hx. }
        assert (F2 : Forall digit (skipn k ds)).
        { apply Forall_forall. intros x Hx.
          rewrite Forall_forall in Hds. apply Hds. rewrite <- (firstn_skipn k ds). apply in_or_app. right. exact Hx. }
        repeat split.
        -- do 2 eexists. split; [reflexivity|apply digit_chr_of; exact Hd].
        -- intros b Hb. cbn [firstn skipn]. rewrite <- app_assoc. cbn [app].
           eexists. split; [apply scan_frac; assumption|].
           rewrite parse_frac by assumption. f_equal. f_equal.
           cbn [app]. rewrite firstn_skipn. reflexivity.
        -- exact Hm.
        -- lia.
        -- rewrite EL. rewrite HU by lia. do 2 f_equal. lia.
  - (* scientific *)
    destruct ds as [|d1 ds].
    + exists m, X. repeat split.
      * do 2 eexists. split; [reflexivity|apply digit_chr_of; exact Hd].
      * intros b Hb. change (digit_chr d :: show_exp X) with (chrs [d] ++ show_exp X).
        rewrite <- app_assoc. eexists. split.
        -- rewrite scan_digits by assumption. rewrite scan_exp by exact Hb. reflexivity.
        -- cbn [fst]. apply parse_sci1. exact Hd.
      * exact Hm.
      * lia.
      * rewrite HU by lia. do 2 f_equal. rewrite zlen_nil. lia.
    + exists m, (X - zlen (d1 :: ds)). repeat split.
      * do 2 eexists. split; [reflexivity|apply digit_chr_of; exact Hd].
      * intros b Hb.
        change (digit_chr d :: x2e :: chrs (d1 :: ds) ++ show_exp X)
          with (chrs [d] ++ x2e :: chrs (d1 :: ds) ++ show_exp X).
        rewrite <- app_assoc. cbn [app]. eexists. split.
        -- rewrite scan_digits by (constructor; [exact Hd|constructor]). rewrite scan_dot.
           rewrite <- app_assoc. rewrite scan_digits by exact Hds.
           rewrite scan_exp by exact Hb. reflexivity.
        -- cbn [fst]. apply parse_sci; [exact HF|discriminate].
      * exact Hm.
      * lia.
      * rewrite HU by lia. do 2 f_equal. lia.
Qed.

(** ** The round trip of one double *)

(** What [in >> d] yields from the text of [x]. *)
Definition ascii_mag (a : Z) : Z :=
  if a =? 0 then 0 else let (D, X) := sci6 (mag_units a) in dec_round D X.
Definition ascii_round (x : dbl) : dbl := mk_dbl (dneg x) (ascii_mag (dmag x)).

Lemma dmag_range : forall x, size_ok x -> 0 <= dmag x < two63.
Proof.
  unfold size_ok, dmag, two64, two63. intros x H.
  destruct (9223372036854775808 <=? x) eqn:E; [apply Z.leb_le in E|apply Z.leb_gt in E]; lia.
Qed.

Lemma mk_dbl_eta : forall x, mk_dbl (dneg x) (dmag x) = x.
Proof.
  intro x. unfold mk_dbl, dneg, dmag. destruct (two63 <=? x); lia.
Qed.

Lemma reads_double : forall x, size_ok x -> is_finite x = true ->
  reads extract_double (show_double x) (ascii_round x).
Proof.
  intros x Hx Hf. unfold is_finite in Hf. apply Z.ltb_lt in Hf.
  pose proof (dmag_range x Hx) as HR. unfold show_double, ascii_round, ascii_mag.
  assert (Q : exists m e, parses (show_mag (dmag x)) m e /\
    round_dec m e = (if dmag x =? 0 then 0 else let (D, X) := sci6 (mag_units (dmag x)) in dec_round D X) /\
    0 <= round_dec m e < inf_mag).
  { unfold show_mag. destruct (dmag x =? 0) eqn:E0.
    - exists 0, 0. split; [|split; [reflexivity|rewrite (round_dec_canon 0 0) by lia; vm_compute; split; congruence]].
      split; [do 2 eexists; split; [reflexivity|discriminate]|].
      intros b Hb. eexists. split; [apply (scan_int [0]); [constructor; [unfold digit; lia|constructor]|exact Hb]|].
      reflexivity.
    - apply Z.eqb_neq in E0.
      replace (dmag x =? inf_mag) with false by (symmetry; apply Z.eqb_neq; lia).
      replace (inf_mag <? dmag x) with false by (symmetry; apply Z.ltb_ge; lia).
      destruct (sci6 (mag_units (dmag x))) as [D X] eqn:ES.
      assert (Ha : 0 < dmag x < inf_mag) by lia.
      pose proof (sci6_spec _ _ _ (mag_units_range _ Ha) ES) as (HD & HX & _).
      destruct (show_g_parses D X HD HX) as (m & e & HP & Hm & He & EU).
      exists m, e. split; [exact HP|].
      rewrite (round_dec_same m e D X) by (try assumption; lia).
      split; [reflexivity|]. eapply dec_round_finite; eassumption. }
  destruct Q as (m & e & HP & ER & HB). rewrite <- ER.
  destruct HP as [(c & t' & Et & Hc) HP].
  split.
  - destruct (dneg x); cbn [app].
    + do 2 eexists. split; reflexivity.
    + exists c, t'. split; [exact Et|]. destruct (is_ws c) eqn:W; [|reflexivity].
      apply ws_not_digit in W. congruence.
  - intros b Hb. unfold extract_double.
    assert (ET : take_sign (((if dneg x then [x2d] else []) ++ show_mag (dmag x)) ++ b)
                 = (dneg x, show_mag (dmag x) ++ b)).
    { destruct (dneg x); [reflexivity|]. cbn [app]. rewrite Et. cbn [app].
      destruct c; try reflexivity; exfalso; apply Hc; reflexivity. }
    rewrite ET. destruct (HP b Hb) as (t & -> & ->).
    replace (inf_mag <=? round_dec m e) with false by (symmetry; apply Z.leb_gt; lia). reflexivity.
Qed.

Lemma rd_double_RT : forall old x sep, size_ok x -> is_finite x = true -> ws sep -> sep <> [] ->
  RT (op (rd_double old)) (show_double x ++ sep) (ascii_round x).
Proof. intros. apply rd_num_RT; auto. apply reads_double; assumption. Qed.

Lemma rd_double_RTe : forall old x, size_ok x -> is_finite x = true ->
  RTe (op (rd_double old)) (show_double x ++ endl) (ascii_round x).
Proof. intros. apply rd_num_RTe; auto. apply reads_double; assumption. Qed.

(** ** Properties of [ascii_round] *)

Lemma ascii_mag_range : forall a, 0 <= a < inf_mag -> 0 <= ascii_mag a < inf_mag.
Proof.
  intros a Ha. unfold ascii_mag. destruct (a =? 0) eqn:E0.
  - unfold inf_mag. lia.
  - apply Z.eqb_neq in E0. destruct (sci6 (mag_units a)) as [D X] eqn:ES.
    apply (dec_round_finite a); [lia|exact ES].
Qed.

Lemma dneg_mk : forall n a, 0 <= a < inf_mag -> dneg (mk_dbl n a) = n.
Proof.
  intros n a H. unfold dneg, mk_dbl, inf_mag, two63 in *.
  destruct n; [apply Z.leb_le|apply Z.leb_gt]; lia.
Qed.

Lemma dmag_mk : forall n a, 0 <= a < inf_mag -> dmag (mk_dbl n a) = a.
Proof.
  intros n a H. unfold dmag. pose proof (dneg_mk n a H) as E. unfold dneg in E. rewrite E.
  unfold mk_dbl. destruct n; lia.
Qed.

Lemma ascii_round_dneg : forall x, size_ok x -> is_finite x = true -> dneg (ascii_round x) = dneg x.
Proof.
  intros x Hx Hf. apply Z.ltb_lt in Hf. pose proof (dmag_range x Hx).
  apply dneg_mk. apply ascii_mag_range. lia.
Qed.

Lemma ascii_round_dmag : forall x, size_ok x -> is_finite x = true ->
  dmag (ascii_round x) = ascii_mag (dmag x).
Proof.
  intros x Hx Hf. apply Z.ltb_lt in Hf. pose proof (dmag_range x Hx).
  apply dmag_mk. apply ascii_mag_range. lia.
Qed.

Lemma ascii_round_ok : forall x, size_ok x -> is_finite x = true ->
  size_ok (ascii_round x) /\ is_finite (ascii_round x) = true.
Proof.
  intros x Hx Hf. pose proof (ascii_round_dmag x Hx Hf) as E.
  apply Z.ltb_lt in Hf. pose proof (dmag_range x Hx) as HR.
  pose proof (ascii_mag_range (dmag x) ltac:(lia)) as HA.
  split; [|unfold is_finite; rewrite E; apply Z.ltb_lt; lia].
  unfold ascii_round, mk_dbl, size_ok, two64, two63, inf_mag in *. destruct (dneg x); lia.
Qed.

(** Doubles of at most six significant digits (rounded from D * 10^(X-5)) are
    unchanged. *)
Lemma ascii_mag_six : forall D X, 100000 <= D <= 999999 -> -317 <= X ->
  dec_round D X < inf_mag -> ascii_mag (dec_round D X) = dec_round D X.
Proof.
  intros D X HD HX Hf. unfold ascii_mag. destruct (dec_round D X =? 0) eqn:E0.
  - apply Z.eqb_eq in E0. lia.
  - rewrite sci6_dec_round by assumption. reflexivity.
Qed.

(** Printing again changes nothing. *)
Lemma ascii_mag_idem : forall a, 0 <= a < inf_mag -> (a = 0 \/ two52 <= a) ->
  ascii_mag (ascii_mag a) = ascii_mag a.
Proof.
  intros a Ha Hn. unfold ascii_mag at 2 3. destruct (a =? 0) eqn:E0; [reflexivity|].
  apply Z.eqb_neq in E0. destruct Hn as [Hn|Hn]; [contradiction|].
  destruct (sci6 (mag_units a)) as [D X] eqn:ES.
  pose proof (mag_units_range a ltac:(lia)) as R.
  pose proof (sci6_spec _ _ _ R ES) as (HD & HX & Herr).
  apply ascii_mag_six; [exact HD| |apply (dec_round_finite a); [lia|exact ES]].
  assert (M : mag_units two52 <= mag_units a).
  { destruct (Z.eq_dec a two52) as [->|]; [lia|]. apply Z.lt_le_incl. apply mag_units_mono.
    pose proof two52_pos. lia. }
  change (mag_units two52) with two52 in M.
  assert (~ X <= -318); [|lia]. intro HC.
  pose proof (U_le (X - 5) (-323) ltac:(lia) ltac:(lia)) as HU.
  assert (B : U (-323) <= 3 * P400) by (apply Z.leb_le; vm_compute; reflexivity).
  pose proof P400_pos as HP. unfold two52 in M. nia.
Qed.

Lemma ascii_round_idem : forall x, size_ok x -> is_finite x = true ->
  (dmag x = 0 \/ two52 <= dmag x) -> ascii_round (ascii_round x) = ascii_round x.
Proof.
  intros x Hx Hf Hn. unfold ascii_round at 1.
  rewrite ascii_round_dneg, ascii_round_dmag by assumption.
  apply Z.ltb_lt in Hf. pose proof (dmag_range x Hx).
  rewrite ascii_mag_idem by (auto; lia). reflexivity.
Qed.

(** Error bound, in units of 2^-1074. *)
Lemma ascii_mag_err : forall a, 0 <= a < inf_mag ->
  199999 * Z.abs (mag_units (ascii_mag a) - mag_units a) <= mag_units a + 200000.
Proof.
  intros a Ha. unfold ascii_mag. destruct (a =? 0) eqn:E0.
  - apply Z.eqb_eq in E0. subst. vm_compute. discriminate.
  - apply Z.eqb_neq in E0. destruct (sci6 (mag_units a)) as [D X] eqn:ES.
    pose proof (mag_units_range a ltac:(lia)) as R.
    pose proof (sci6_spec _ _ _ R ES) as (HD & HX & Herr).
    pose proof (U_pos (X - 5) ltac:(lia)) as HT.
    assert (HN : 0 <= D * U (X - 5)) by lia. pose proof P400_pos as HP.
    unfold dec_round. set (N := D * U (X - 5)) in *.
    destruct (round_u_err N P400 HN HP) as [E|E].
    + set (V' := mag_units (round_u N P400)) in *. set (V := mag_units a) in *.
      clearbody V' V N. generalize dependent P400. intros P; intros.
      assert (199999 * Z.abs ((V' - V) * P) <= (V + 200000) * P) by lia.
      rewrite Z.abs_mul, (Z.abs_eq P) in H by lia. nia.
    + set (V' := mag_units (round_u N P400)) in *. set (V := mag_units a) in *.
      destruct R as [R _].
      clearbody V' V N. unfold two53 in E. generalize dependent P400. intros P; intros.
      assert (199999 * Z.abs ((V' - V) * P) <= V * P) by lia.
      rewrite Z.abs_mul, (Z.abs_eq P) in H by lia. nia.
Qed.

(** Normal range: relative error below 1/199999. *)
Lemma ascii_mag_err_normal : forall a, two52 <= a < inf_mag ->
  199998 * Z.abs (mag_units (ascii_mag a) - mag_units a) <= mag_units a.
Proof.
  intros a Ha. pose proof two52_pos. pose proof (ascii_mag_err a ltac:(lia)) as E.
  assert (M : two52 <= mag_units a).
  { change two52 with (mag_units two52) at 1.
    destruct (Z.eq_dec a two52) as [->|]; [lia|]. apply Z.lt_le_incl. apply mag_units_mono. lia. }
  unfold two52 in M. lia.
Qed.
