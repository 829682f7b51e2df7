(** The stream extractors read every numeral. *)

From Verif Require Import Model.IStream Spec.Numerals Proofs.BytesP Proofs.DblP Proofs.DecP Proofs.ShowP
  Proofs.RtBase Proofs.RtStep Proofs.RoundP.
From Coq Require Import Lqa.

Ltac Zify.zify_post_hook ::= idtac.

(** ** Digits *)

Lemma digit_is_chr : forall c d, digit_is c d -> digit d /\ c = digit_chr d.
Proof.
  intros c d [H E]. split; [unfold digit; lia|].
  assert (C : d = 0 \/ d = 1 \/ d = 2 \/ d = 3 \/ d = 4 \/ d = 5 \/ d = 6 \/ d = 7 \/ d = 8 \/ d = 9) by lia.
  repeat destruct C as [->|C]; try subst d; destruct c; try discriminate; reflexivity.
Qed.

Lemma digits_chrs : forall w k n, digits w k n ->
  exists ds, w = chrs ds /\ Forall digit ds /\ zlen ds = k /\ digits_val ds = n.
Proof.
  intros w k n H. induction H as [|w k n c d H (ds & -> & F & L & V) D].
  - exists []. repeat split. constructor.
  - apply digit_is_chr in D. destruct D as [D ->]. exists (ds ++ [d]).
    split; [rewrite chrs_app; reflexivity|]. split; [apply Forall_app; split; [exact F|constructor; [exact D|constructor]]|].
    split; [rewrite zlen_app, L; reflexivity|].
    rewrite digits_val_app, V. change (zlen [d]) with 1. change (10 ^ 1) with 10.
    change (digits_val [d]) with (10 * 0 + d). lia.
Qed.

Lemma digits_some : forall w k n, digits w k n -> 1 <= k ->
  exists d ds, w = chrs (d :: ds) /\ Forall digit (d :: ds) /\ digits_val (d :: ds) = n.
Proof.
  intros w k n H K. apply digits_chrs in H. destruct H as ([|d ds] & -> & F & <- & V); [discriminate K || (cbn in K; lia)|].
  exists d, ds. auto.
Qed.

Lemma take_sign_app : forall s minus c b, sign s minus -> c <> x2b -> c <> x2d ->
  take_sign (s ++ c :: b) = (minus, c :: b).
Proof.
  intros s minus c b [| |] H1 H2; [|reflexivity..]. cbn [app]. unfold take_sign.
  destruct c; try reflexivity; congruence.
Qed.

Lemma chr_not_sign : forall d, digit d -> digit_chr d <> x2b /\ digit_chr d <> x2d /\ is_ws (digit_chr d) = false.
Proof.
  intros d H. apply digit_cases in H.
  repeat (destruct H as [->|H]; [repeat split; discriminate|]). subst; repeat split; discriminate.
Qed.

Lemma sign_first : forall s minus c t, sign s minus -> is_ws c = false ->
  exists c' t', s ++ c :: t = c' :: t' /\ is_ws c' = false.
Proof. intros s minus c t [| |] H; do 2 eexists; (split; [reflexivity|]); [exact H|reflexivity..]. Qed.

(** ** Integers *)

Lemma integer_take : forall w z b, integer w z -> starts_ws b ->
  exists minus d ds, take_sign (w ++ b) = (minus, chrs (d :: ds) ++ b) /\
    take_digits (chrs (d :: ds) ++ b) = (d :: ds, b) /\ Forall digit (d :: ds) /\
    z = signed minus (digits_val (d :: ds)).
Proof.
  intros w z b (s & minus & t & k & n & -> & S & D & K & ->) B.
  destruct (digits_some t k n D K) as (d & ds & -> & F & <-).
  exists minus, d, ds. pose proof (chr_not_sign d (Forall_inv F)) as (N1 & N2 & _).
  rewrite <- app_assoc. split; [apply take_sign_app; assumption|]. split; [|split; [exact F|reflexivity]].
  apply take_digits_chrs; [exact F|]. apply starts_ws_nodigit. exact B.
Qed.

Lemma integer_first : forall w z, integer w z -> exists c t, w = c :: t /\ is_ws c = false.
Proof.
  intros w z (s & minus & t & k & n & -> & S & D & K & ->).
  destruct (digits_some t k n D K) as (d & ds & -> & F & <-).
  apply (sign_first s minus (digit_chr d) (chrs ds) S). apply (chr_not_sign d (Forall_inv F)).
Qed.

Lemma int_word_reads : forall z w, int_word z w -> reads extract_int w z.
Proof.
  intros z w [I R]. split; [exact (integer_first w z I)|]. intros b B.
  destruct (integer_take w z b I B) as (minus & d & ds & E1 & E2 & F & ->).
  unfold extract_int. rewrite E1, E2. unfold signed in *. unfold int_ok in R.
  replace (_ <? INT_MIN) with false by (symmetry; apply Z.ltb_ge; lia).
  replace (INT_MAX <? _) with false by (symmetry; apply Z.ltb_ge; lia). reflexivity.
Qed.

Lemma size_word_reads : forall z w, size_word z w -> reads extract_size w z.
Proof.
  intros z w [I R]. split; [exact (integer_first w z I)|]. intros b B.
  destruct (integer_take w z b I B) as (minus & d & ds & E1 & E2 & F & ->).
  unfold extract_size. rewrite E1, E2. unfold size_ok in R.
  pose proof (digits_val_nonneg _ F) as P. unfold signed in *.
  assert (G : SIZE_MAX <? digits_val (d :: ds) = false).
  { apply Z.ltb_ge. unfold SIZE_MAX, two64 in *. destruct minus; lia. }
  rewrite G. destruct minus; [|reflexivity]. rewrite to_size_id by exact R. reflexivity.
Qed.

(** ** The closest double to a fraction *)

Section Den.
Variable d : positive.
Definition den : positive := d * Z.to_pos (2 ^ 1074).

Lemma den_lt : forall a b, (a # den < b # den)%Q <-> a < b.
Proof. intros. unfold Qlt. cbn [Qnum Qden]. nia. Qed.
Lemma den_le : forall a b, (a # den <= b # den)%Q <-> a <= b.
Proof. intros. unfold Qle. cbn [Qnum Qden]. nia. Qed.
Lemma den_eq : forall a b, (a # den == b # den)%Q <-> a = b.
Proof. intros. unfold Qeq. cbn [Qnum Qden]. nia. Qed.
Lemma den_dist : forall a b, (Qabs ((a # den) - (b # den)) == (Z.abs (a - b) # den))%Q.
Proof.
  intros. assert (E : ((a # den) - (b # den) == (a - b # den))%Q).
  { unfold Qminus, Qplus, Qopp, Qeq. cbn [Qnum Qden]. rewrite Pos2Z.inj_mul. ring. }
  rewrite E. reflexivity.
Qed.

Lemma dval_den : forall x, size_ok x -> finite x ->
  (dval x == sgn (dneg x) (mag_units (dmag x)) * Z.pos d # den)%Q.
Proof.
  intros x Hx Hf. rewrite (dval_frac x Hx Hf). unfold frac, Qeq, den. cbn [Qnum Qden].
  rewrite TP_eq, Pos2Z.inj_mul, Z2Pos.id by reflexivity. unfold sgn. ring.
Qed.

Lemma closest_double_den : forall n N, 0 <= N -> round_u N (Z.pos d) < inf_mag ->
  closest_double (sgn n N # den) (mk_dbl n (round_u N (Z.pos d))).
Proof.
  intros n N HN Hf.
  assert (HR : 0 <= round_u N (Z.pos d)) by (apply round_u_nonneg; [exact HN|reflexivity]).
  set (b := round_u N (Z.pos d)) in *.
  assert (Hn : dneg (mk_dbl n b) = n) by (apply dneg_mk; lia).
  assert (Hm : dmag (mk_dbl n b) = b) by (apply dmag_mk; lia).
  assert (Hs : size_ok (mk_dbl n b)).
  { unfold size_ok, mk_dbl, two64, two63, inf_mag in *. destruct n; lia. }
  assert (Hfi : finite (mk_dbl n b)).
  { apply is_finite_finite; [exact Hs|]. unfold is_finite. rewrite Hm. apply Z.ltb_lt. exact Hf. }
  split; [exact Hs|]. split; [exact Hfi|]. intros z Hz Hzf.
  rewrite !(dval_den _ Hz Hzf), !(dval_den _ Hs Hfi).
  rewrite !den_dist, Hn, Hm. rewrite den_lt, !den_eq.
  assert (Hev : Z.even (mk_dbl n b) = Z.even b).
  { unfold mk_dbl. destruct n; [|reflexivity]. rewrite Z.even_add. change (Z.even two63) with true.
    destruct (Z.even b); reflexivity. }
  rewrite Hev. pose proof (finite_mag z Hz Hzf) as Hzm.
  pose proof (round_u_closest N (Z.pos d) (dmag z) HN ltac:(lia) ltac:(lia)) as C.
  cbv zeta in C. change (round_u N (Z.pos d)) with b in C.
  pose proof (round_u_closest N (Z.pos d) 0 HN ltac:(lia) ltac:(lia)) as C0.
  cbv zeta in C0. change (round_u N (Z.pos d)) with b in C0.
  change (mag_units 0) with 0 in C0. rewrite Z.mul_0_l in C0.
  pose proof (mag_units_nonneg (dmag z) ltac:(lia)) as Hu.
  pose proof (mag_units_nonneg b HR) as Hb.
  assert (C' : Z.abs (mag_units b * Z.pos d - N) < Z.abs (mag_units (dmag z) * Z.pos d - N) \/
    mag_units b * Z.pos d = mag_units (dmag z) * Z.pos d \/
    Z.abs (mag_units b * Z.pos d - N) = Z.abs (mag_units (dmag z) * Z.pos d - N) /\ Z.even b = true).
  { destruct C as [C|[C|C]]; [left; exact C| |right; right; exact C]. right. left. rewrite C. reflexivity. }
  assert (C0' : Z.abs (mag_units b * Z.pos d - N) < Z.abs (0 - N) \/ mag_units b * Z.pos d = 0 \/
    Z.abs (mag_units b * Z.pos d - N) = Z.abs (0 - N) /\ Z.even b = true).
  { destruct C0 as [C0|[C0|C0]]; [left; exact C0| |right; right; exact C0]. right. left. rewrite C0. reflexivity. }
  assert (ES : forall s a, sgn s a * Z.pos d = sgn s (a * Z.pos d)) by (intros [|] a; unfold sgn; ring).
  rewrite !ES. set (A := mag_units b * Z.pos d) in *. set (Zu := mag_units (dmag z) * Z.pos d) in *.
  assert (HA : 0 <= A) by (unfold A; nia). assert (HZ : 0 <= Zu) by (unfold Zu; nia).
  clear C C0. clearbody A Zu. unfold sgn. destruct n, (dneg z).
  - destruct C' as [C'|[C'|[C' C'']]]; [left; lia|right; left; lia|right; right; split; [lia|exact C'']].
  - destruct (Z.eq_dec Zu 0) as [->|Hz0].
    + destruct C0' as [C0'|[C0'|[C0' C'']]]; [left; lia|right; left; lia|right; right; split; [lia|exact C'']].
    + destruct C0' as [C0'|[C0'|[C0' C'']]]; left; lia.
  - destruct (Z.eq_dec Zu 0) as [->|Hz0].
    + destruct C0' as [C0'|[C0'|[C0' C'']]]; [left; lia|right; left; lia|right; right; split; [lia|exact C'']].
    + destruct C0' as [C0'|[C0'|[C0' C'']]]; left; lia.
  - destruct C' as [C'|[C'|[C' C'']]]; [left; lia|right; left; lia|right; right; split; [lia|exact C'']].
Qed.
End Den.

Lemma closest_double_Qeq : forall q q' x, (q == q')%Q -> closest_double q x -> closest_double q' x.
Proof.
  intros q q' x E (H1 & H2 & H3). split; [exact H1|]. split; [exact H2|]. intros z Hz Hf.
  rewrite <- !E. apply H3; assumption.
Qed.

Lemma sgn_signed : forall n z, sgn n z = signed n z.
Proof. reflexivity. Qed.

(** m * 10^e over the denominator. *)
Lemma decimal_den : forall n m e, 0 <= m -> exists N d,
  0 <= N /\ round_dec m e = round_u N (Z.pos d) /\ (decimal (signed n m) e == sgn n N # den d)%Q.
Proof.
  intros n m e Hm. unfold round_dec, decimal.
  destruct (Z.leb_spec 0 e) as [L|L].
  - exists (m * 10 ^ e * 2 ^ 1074), 1%positive. pose proof (Z.pow_nonneg 10 e ltac:(lia)) as P.
    split; [apply Z.mul_nonneg_nonneg; [nia|discriminate]|]. split; [apply round_pos_u|].
    rewrite ten_pow by exact L. unfold Qeq, Qmult, inject_Z, den, sgn, signed. cbn [Qnum Qden].
    rewrite !Pos.mul_1_l, Z2Pos.id by reflexivity. destruct n; ring.
  - assert (P : 0 < 10 ^ (- e)) by (apply Z.pow_pos_nonneg; lia).
    exists (m * 2 ^ 1074), (Z.to_pos (10 ^ (- e))).
    split; [apply Z.mul_nonneg_nonneg; [exact Hm|discriminate]|].
    rewrite Z2Pos.id by exact P. split; [apply round_pos_u|].
    assert (E : ((10 # 1) ^ e == / inject_Z (10 ^ (- e)))%Q).
    { rewrite <- ten_pow by lia. rewrite Qpower_opp, Qinv_involutive. reflexivity. }
    rewrite E. assert (NZ : ~ (inject_Z (10 ^ (- e)) == 0)%Q).
    { unfold Qeq, inject_Z. cbn [Qnum Qden]. lia. }
    apply (Qmult_inj_r _ _ _ NZ). rewrite <- Qmult_assoc, (Qmult_comm (/ _)), Qmult_inv_r, Qmult_1_r by exact NZ.
    unfold Qeq, Qmult, inject_Z, den, sgn, signed. cbn [Qnum Qden].
    rewrite !Pos.mul_1_r, !Pos2Z.inj_mul, !Z2Pos.id by (exact P || reflexivity). destruct n; ring.
Qed.

Lemma dbl_max_mag : dneg dbl_max = false /\ dmag dbl_max = max_mag /\ size_ok dbl_max /\ finite dbl_max.
Proof. repeat split; vm_compute; discriminate || reflexivity. Qed.

Lemma read_decimal : forall n m e x, 0 <= m ->
  (Qabs (decimal (signed n m) e) <= dval dbl_max)%Q -> closest_double (decimal (signed n m) e) x ->
  dneg x = n -> round_dec m e < inf_mag /\ mk_dbl n (round_dec m e) = x.
Proof.
  intros n m e x Hm B C S. destruct (decimal_den n m e Hm) as (N & d & HN & -> & E).
  destruct dbl_max_mag as (M1 & M2 & M3 & M4).
  assert (L : round_u N (Z.pos d) <= max_mag).
  { apply round_u_le; [exact HN|reflexivity|discriminate|].
    rewrite E, (dval_den d _ M3 M4), M1, M2 in B. unfold sgn at 2 in B.
    change (Qabs (sgn n N # den d)) with (Z.abs (sgn n N) # den d) in B. apply den_le in B.
    unfold sgn in B. destruct n; lia. }
  assert (L' : round_u N (Z.pos d) < inf_mag) by (unfold max_mag, inf_mag in *; lia).
  split; [exact L'|]. apply closest_double_unique with (decimal (signed n m) e); [|exact C|].
  - apply (closest_double_Qeq (sgn n N # den d)); [symmetry; exact E|]. apply closest_double_den; assumption.
  - rewrite S. apply dneg_mk. split; [apply round_u_nonneg; [exact HN|reflexivity]|exact L'].
Qed.

(** ** Scanning and parsing reals *)

Lemma scan_e : forall c fd d b, c = x65 \/ c = x45 -> digit d ->
  scan_float true fd false (c :: digit_chr d :: b) =
  (let (t, r) := scan_float true fd true (digit_chr d :: b) in (x65 :: t, r)).
Proof.
  intros c fd d b Hc Hd. apply digit_cases in Hd.
  set (B := scan_float true fd true (digit_chr d :: b)).
  destruct Hc as [-> | ->]; repeat destruct Hd as [Hd|Hd]; subst d; destruct fd; reflexivity.
Qed.

Lemma scan_e_sign : forall c fd s b, c = x65 \/ c = x45 -> s = x2b \/ s = x2d ->
  scan_float true fd false (c :: s :: b) = (let (t, r) := scan_float true fd true b in (x65 :: s :: t, r)).
Proof. intros c fd s b [-> | ->] [-> | ->]; destruct fd; reflexivity. Qed.

(** What the scanner keeps of the exponent. *)
Lemma exponent_scan : forall w e fd b, exponent w e -> starts_ws b ->
  exists t, scan_float true fd false (w ++ b) = (t, b) /\ parse_exp t = Some e /\
    (t = [] \/ exists t', t = x65 :: t').
Proof.
  intros w e fd b [[-> ->]|(c & t & -> & Hc & I)] B.
  - exists []. rewrite scan_stop by exact B. repeat split. left. reflexivity.
  - destruct I as (s & minus & u & k & n & -> & S & D & K & ->).
    destruct (digits_some u k n D K) as (d & ds & -> & F & <-).
    exists (x65 :: s ++ chrs (d :: ds)).
    assert (E : scan_float true fd true (chrs (d :: ds) ++ b) = (chrs (d :: ds), b)).
    { rewrite scan_digits by exact F. rewrite scan_stop by exact B. cbn [fst snd]. rewrite app_nil_r. reflexivity. }
    pose proof (chr_not_sign d (Forall_inv F)) as (N1 & N2 & _).
    split; [|split; [|right; eexists; reflexivity]].
    + destruct S; cbn [app].
      * change (c :: chrs (d :: ds) ++ b) with (c :: digit_chr d :: chrs ds ++ b).
        rewrite (scan_e c fd d _ Hc (Forall_inv F)).
        change (digit_chr d :: chrs ds ++ b) with (chrs (d :: ds) ++ b). rewrite E. reflexivity.
      * rewrite (scan_e_sign c fd x2b _ Hc (or_introl eq_refl)), E. reflexivity.
      * rewrite (scan_e_sign c fd x2d _ Hc (or_intror eq_refl)), E. reflexivity.
    + cbn [parse_exp]. assert (T : take_sign (s ++ chrs (d :: ds)) = (minus, chrs (d :: ds))) by (apply take_sign_app; assumption).
      rewrite T, take_digits_chrs0 by exact F. reflexivity.
Qed.

Lemma real_reads : forall x w, real_word x w -> reads extract_double w x.
Proof.
  intros x w (minus & q & (s & ip & p & fp & ex & ki & ni & kf & nf & e & -> & S & Di & Df & K & P & X & ->) & B & C & N).
  change (2 ^ 63 <=? x) with (dneg x) in N.
  destruct (digits_chrs ip ki ni Di) as (di & -> & Fi & <- & <-).
  destruct (digits_chrs fp kf nf Df) as (df & -> & Ff & <- & <-).
  (* the text after the sign *)
  assert (First : exists c0 t0, chrs di ++ p ++ chrs df ++ ex = c0 :: t0 /\ is_ws c0 = false /\ c0 <> x2b /\ c0 <> x2d).
  { destruct di as [|d di].
    - destruct P as [->|[-> E]].
      + do 2 eexists. split; [reflexivity|]. repeat split; discriminate.
      + apply map_eq_nil in E. subst df. cbn in K. lia.
    - do 2 eexists. split; [reflexivity|]. pose proof (chr_not_sign d (Forall_inv Fi)). tauto. }
  split.
  { destruct First as (c0 & t0 & -> & W & _). apply (sign_first s minus); assumption. }
  intros b Hb. unfold extract_double.
  assert (T : take_sign ((s ++ chrs di ++ p ++ chrs df ++ ex) ++ b) = (minus, (chrs di ++ p ++ chrs df ++ ex) ++ b)).
  { destruct First as (c0 & t0 & -> & W & N1 & N2). rewrite <- app_assoc. apply take_sign_app; assumption. }
  rewrite T.
  assert (Sc : exists t, scan_float false false false ((chrs di ++ p ++ chrs df ++ ex) ++ b) = (chrs di ++ p ++ chrs df ++ t, b) /\
    parse_exp t = Some e /\ (t = [] \/ exists t', t = x65 :: t')).
  { rewrite <- !app_assoc. rewrite scan_digits by exact Fi. destruct P as [->|[-> E]].
    - cbn [app]. rewrite scan_dot. rewrite scan_digits by exact Ff.
      assert (M : match df with [] => match di with [] => false | _ :: _ => true end | _ :: _ => true end = true).
      { destruct df; [|reflexivity]. destruct di; [cbn in K; lia|reflexivity]. }
      rewrite M. destruct (exponent_scan ex e true b X Hb) as (t & -> & Pt & Ht).
      exists t. cbn [fst snd]. auto.
    - apply map_eq_nil in E. subst df. cbn [app map chrs].
      assert (M : match di with [] => false | _ :: _ => true end = true) by (destruct di; [cbn in K; lia|reflexivity]).
      rewrite M. destruct (exponent_scan ex e false b X Hb) as (t & -> & Pt & Ht).
      exists t. cbn [fst snd]. auto. }
  destruct Sc as (t & -> & Pt & Ht).
  assert (PD : parse_dec (chrs di ++ p ++ chrs df ++ t) = Some (digits_val (di ++ df), e - zlen df)).
  { assert (ND' : match t with c :: _ => digit_of c = None | [] => True end).
    { destruct Ht as [->|(t' & ->)]; [exact I|reflexivity]. }
    assert (NE : exists y l, di ++ df = y :: l).
    { destruct di as [|y di]; [|do 2 eexists; reflexivity]. destruct df as [|y df]; [cbn in K; lia|do 2 eexists; reflexivity]. }
    unfold parse_dec. destruct P as [->|[-> E]].
    - rewrite take_digits_chrs by (exact Fi || reflexivity). cbn [app].
      rewrite take_digits_chrs by (exact Ff || exact ND'). rewrite Pt.
      destruct NE as (y & l & ->). reflexivity.
    - apply map_eq_nil in E. subst df. cbn [app map chrs].
      rewrite take_digits_chrs by (exact Fi || exact ND').
      destruct NE as (y & l & NE). destruct Ht as [->|(t' & ->)]; rewrite NE, Pt; reflexivity. }
  rewrite PD. rewrite digits_val_app.
  assert (M0 : 0 <= digits_val di * 10 ^ zlen df + digits_val df).
  { pose proof (digits_val_nonneg di Fi). pose proof (digits_val_nonneg df Ff).
    pose proof (Z.pow_nonneg 10 (zlen df) ltac:(lia)). nia. }
  destruct (read_decimal minus _ (e - zlen df) x M0 B C N) as [L <-].
  replace (inf_mag <=? _) with false by (symmetry; apply Z.leb_gt; exact L). reflexivity.
Qed.

(** ** Reading from a stream *)

Lemma rd_num_flag : forall A (ext : bytes -> A * bool * bytes) old t v fl w c r,
  (exists x t', t = x :: t' /\ is_ws x = false) -> ext (t ++ c :: r) = (v, fl, c :: r) ->
  ws w -> is_ws c = true ->
  rd_num ext old (opened (w ++ t ++ c :: r)) =
  (v, {| rest := c :: r; eofb := false; failb := fl |}).
Proof.
  intros A ext old t v fl w c r (x & t' & -> & Hx) H Hw Hc. unfold rd_num.
  cbn [app] in *. rewrite sentry_ws by assumption. unfold opened at 1. cbn [IStream.rest].
  rewrite H. destruct fl; reflexivity.
Qed.

Lemma int_word_text : forall z t old w c r, int_word z t -> ws w -> is_ws c = true ->
  rd_int old (opened (w ++ t ++ c :: r)) = (z, opened (c :: r)).
Proof.
  intros z t old w c r H Hw Hc. destruct (int_word_reads z t H) as [F E]. apply rd_num_flag; auto.
Qed.

Lemma size_word_text : forall z t old w c r, size_word z t -> ws w -> is_ws c = true ->
  rd_size old (opened (w ++ t ++ c :: r)) = (z, opened (c :: r)).
Proof.
  intros z t old w c r H Hw Hc. destruct (size_word_reads z t H) as [F E]. apply rd_num_flag; auto.
Qed.

Lemma real_word_text : forall x t old w c r, real_word x t -> ws w -> is_ws c = true ->
  rd_double old (opened (w ++ t ++ c :: r)) = (x, opened (c :: r)).
Proof.
  intros x t old w c r H Hw Hc. destruct (real_reads x t H) as [F E]. apply rd_num_flag; auto.
Qed.

Lemma int_out_of_range : forall z t old w c r, integer t z -> ~ int_ok z -> ws w -> is_ws c = true ->
  rd_int old (opened (w ++ t ++ c :: r)) =
  (if z <? 0 then INT_MIN else INT_MAX, {| rest := c :: r; eofb := false; failb := true |}).
Proof.
  intros z t old w c r I R Hw Hc. apply rd_num_flag; auto; [exact (integer_first t z I)|].
  destruct (integer_take t z (c :: r) I Hc) as (minus & d & ds & E1 & E2 & F & E).
  unfold extract_int. rewrite E1, E2. change (if minus then - digits_val (d :: ds) else digits_val (d :: ds))
    with (signed minus (digits_val (d :: ds))). rewrite <- E.
  unfold int_ok, INT_MIN, INT_MAX in *.
  destruct (z <? 0) eqn:Z0; [apply Z.ltb_lt in Z0|apply Z.ltb_ge in Z0].
  - replace (z <? _) with true by (symmetry; apply Z.ltb_lt; lia). reflexivity.
  - replace (z <? _) with false by (symmetry; apply Z.ltb_ge; lia).
    replace (_ <? z) with true by (symmetry; apply Z.ltb_lt; lia). reflexivity.
Qed.

Lemma size_negative : forall z t old w c r, integer t z -> - two64 < z < 0 -> ws w -> is_ws c = true ->
  rd_size old (opened (w ++ t ++ c :: r)) = (z + two64, opened (c :: r)).
Proof.
  intros z t old w c r I R Hw Hc. apply rd_num_flag; auto; [exact (integer_first t z I)|].
  destruct (integer_take t z (c :: r) I Hc) as (minus & d & ds & E1 & E2 & F & E).
  pose proof (digits_val_nonneg _ F) as P.
  unfold extract_size. rewrite E1, E2. destruct minus; unfold signed in E; [|lia].
  replace (SIZE_MAX <? _) with false by (symmetry; apply Z.ltb_ge; unfold SIZE_MAX, two64 in *; lia).
  rewrite <- E. unfold to_size. f_equal. f_equal. symmetry.
  apply Z.mod_unique with (-1); lia.
Qed.

Lemma size_out_of_range : forall z t old w c r, integer t z -> two64 <= Z.abs z -> ws w -> is_ws c = true ->
  rd_size old (opened (w ++ t ++ c :: r)) =
  (SIZE_MAX, {| rest := c :: r; eofb := false; failb := true |}).
Proof.
  intros z t old w c r I R Hw Hc. apply rd_num_flag; auto; [exact (integer_first t z I)|].
  destruct (integer_take t z (c :: r) I Hc) as (minus & d & ds & E1 & E2 & F & E).
  pose proof (digits_val_nonneg _ F) as P.
  unfold extract_size. rewrite E1, E2.
  replace (SIZE_MAX <? _) with true; [reflexivity|].
  symmetry. apply Z.ltb_lt. unfold SIZE_MAX, two64, signed in *. destruct minus; lia.
Qed.

Lemma exact_closest : forall q y, size_ok y -> finite y -> (dval y == q)%Q -> closest_double q y.
Proof.
  intros q y S F E. split; [exact S|]. split; [exact F|]. intros z _ _.
  destruct (Qlt_le_dec 0 (Qabs (dval z - q))) as [L|L].
  - left. rewrite E. setoid_replace (q - q)%Q with 0%Q by ring. exact L.
  - right. left. rewrite E. assert (A : (Qabs (dval z - q) == 0)%Q).
    { apply Qle_antisym; [exact L|apply Qabs_nonneg]. }
    revert A. apply Qabs_case; intros; lra.
Qed.
