(** What >> does with a number in any text. *)

From Verif Require Import Model.IStream Spec.Extract Proofs.BytesP Proofs.DblP Proofs.RtBase Proofs.ShowP Proofs.RoundP Proofs.NumeralsP Proofs.ToldNumP Proofs.ToldOneP.

Ltac Zify.zify_post_hook ::= idtac.

(** ** Integers *)

Lemma zero_digit : digit_is x30 0.
Proof. split; [lia|reflexivity]. Qed.

Lemma integer_opens : forall s neg t k n, sign s neg -> digits t k n -> opens is_integer (s ++ t).
Proof.
  intros s neg t k n S D. exists [x30]. exists (signed neg (10 * n + 0)), s, neg, (t ++ [x30]), (k + 1), (10 * n + 0).
  rewrite app_assoc. split; [reflexivity|]. split; [exact S|]. split; [apply digits_snoc; [exact D|exact zero_digit]|].
  pose proof (digits_nonneg _ _ _ D). split; [lia|reflexivity].
Qed.

Lemma all_digits_past : forall t b, all_digits t -> snd (take_digits (t ++ b)) = snd (take_digits b).
Proof.
  intros t b H. induction H as [|c t C H IH]; [reflexivity|]. cbn [app take_digits]. destruct (digit_of c) eqn:E; [|elim C; reflexivity].
  destruct (take_digits (t ++ b)). exact IH.
Qed.

(** A beginning of sign and body. *)
Lemma sign_prefix : forall s neg body w x, sign s neg -> w ++ x = s ++ body -> w = [] \/ exists w1, w = s ++ w1 /\ w1 ++ x = body.
Proof.
  intros s neg body w x S E. destruct S; cbn [app] in *; [right; exists w; auto|..];
    (destruct w as [|c w]; [left; reflexivity|injection E as -> E; right; exists w; auto]).
Qed.

Lemma all_digits_prefix : forall w x, all_digits (w ++ x) -> all_digits w.
Proof. intros w x H. apply Forall_app in H. apply H. Qed.
Lemma digit_not_sign : forall c, digit_of c <> None -> c <> x2b /\ c <> x2d.
Proof. intros c H. split; intros ->; apply H; reflexivity. Qed.

Lemma integer_takes : forall b neg b1 ds r, take_sign b = (neg, b1) -> take_digits b1 = (ds, r) ->
  exists s t, sign s neg /\ digits t (zlen ds) (digits_val ds) /\ takes is_integer b (s ++ t) r.
Proof.
  intros b neg b1 ds r ES ED. pose proof (take_sign_is _ _ _ ES) as (s & EB & S). pose proof (take_digits_is _ _ _ ED) as (t & E1 & D).
  exists s, t. split; [exact S|]. split; [exact D|]. split; [rewrite EB, E1, app_assoc; reflexivity|].
  split; [eapply integer_opens; eassumption|].
  intros w' r' E (x & z & s' & m & t' & k & n & EX & S' & D' & K & _).
  assert (L : (List.length r <= List.length r')%nat).
  { rewrite <- app_assoc, <- E1, <- EB in E. destruct (sign_prefix _ _ _ _ _ S' EX) as [-> |(w1 & -> & E2)].
    - cbn [app] in E. subst r'. rewrite EB, E1, !app_length. lia.
    - pose proof (digits_all _ _ _ D') as A. rewrite <- E2 in A. apply all_digits_prefix in A.
      assert (X : take_sign (s' ++ w1 ++ r') = (m, w1 ++ r') \/ (s' = [] /\ w1 = [])).
      { destruct w1 as [|c w1].
        - destruct S'; [right; auto|left; reflexivity|left; reflexivity].
        - left. apply sign_take; [exact S'|]. intros c' l' X. injection X as <- _. inversion A. apply digit_not_sign. assumption. }
      destruct X as [X|[-> ->]].
      + rewrite app_assoc, E, ES in X. injection X as _ X. pose proof (all_digits_past w1 r' A) as P. rewrite <- X, ED in P. cbn [snd] in P.
        rewrite P. apply take_digits_short.
      + cbn [app] in E. subst r'. rewrite EB, E1, !app_length. lia. }
  apply (f_equal (@List.length _)) in E. rewrite !app_length in *. lia.
Qed.

Lemma digits_none : forall s neg t n, sign s neg -> digits t 0 n -> ~ is_integer (s ++ t).
Proof.
  intros s neg t n S D (z & s' & m & t' & k & n' & E & S' & D' & K & _).
  assert (t = []). { inversion D as [|? k0 ? ? ? H]; [reflexivity|]. apply digits_nonneg in H. lia. }
  subst t. rewrite app_nil_r in E. pose proof (digits_no_sign _ _ _ D' K) as N. pose proof (digits_some _ _ _ D' K) as NE.
  destruct S, S'; cbn [app] in E; try discriminate; subst; try (injection E as E; subst); try (elim NE; reflexivity);
    destruct (N _ _ eq_refl); congruence.
Qed.

Lemma int_takes : forall b, exists w r v fl, takes is_integer b w r /\ int_read w v fl /\ extract_int b = (v, fl, r).
Proof.
  intro b. unfold extract_int. destruct (take_sign b) as [neg b1] eqn:ES. destruct (take_digits b1) as [ds r] eqn:ED.
  destruct (integer_takes _ _ _ _ _ ES ED) as (s & t & S & D & T). destruct ds as [|d ds].
  { do 4 eexists. split; [exact T|]. split; [|reflexivity]. constructor. eapply digits_none; eassumption. }
  cbv zeta. assert (I : integer (s ++ t) (signed neg (digits_val (d :: ds)))).
  { exists s, neg, t, (zlen (d :: ds)), (digits_val (d :: ds)). repeat split; auto. apply some_digits. }
  change (if neg then - digits_val (d :: ds) else digits_val (d :: ds)) with (signed neg (digits_val (d :: ds))). set (z := signed _ _) in *. clearbody z.
  destruct (Z.ltb_spec z INT_MIN) as [C|C].
  { do 4 eexists. split; [exact T|]. split; [|reflexivity]. apply int_read_below with z; [exact I|exact C]. }
  destruct (Z.ltb_spec INT_MAX z) as [C2|C2].
  { do 4 eexists. split; [exact T|]. split; [|reflexivity]. apply int_read_above with z; [exact I|]. unfold INT_MAX in C2. lia. }
  do 4 eexists. split; [exact T|]. split; [|reflexivity]. apply int_read_ok; [exact I|]. unfold INT_MIN, INT_MAX in *. lia.
Qed.

Lemma size_takes : forall b, exists w r v fl, takes is_integer b w r /\ size_read w v fl /\ extract_size b = (v, fl, r).
Proof.
  intro b. unfold extract_size. destruct (take_sign b) as [neg b1] eqn:ES. destruct (take_digits b1) as [ds r] eqn:ED.
  destruct (integer_takes _ _ _ _ _ ES ED) as (s & t & S & D & T). destruct ds as [|d ds].
  { do 4 eexists. split; [exact T|]. split; [|reflexivity]. constructor. eapply digits_none; eassumption. }
  cbv zeta. pose proof (digits_nonneg _ _ _ D) as [_ N]. set (v := digits_val (d :: ds)) in *.
  assert (I : integer (s ++ t) (signed neg v)).
  { exists s, neg, t, (zlen (d :: ds)), v. repeat split; auto. apply some_digits. }
  assert (A : Z.abs (signed neg v) = v) by (unfold signed; destruct neg; lia). clearbody v.
  destruct (Z.ltb_spec SIZE_MAX v) as [C|C].
  { do 4 eexists. split; [exact T|]. split; [|reflexivity]. apply size_read_out with (signed neg v); [exact I|]. rewrite A. change (2 ^ 64) with (SIZE_MAX + 1). lia. }
  do 4 eexists. split; [exact T|]. split; [|reflexivity].
  replace (if neg then to_size (- v) else v) with (signed neg v mod 2 ^ 64).
  - constructor; [exact I|]. rewrite A. change (2 ^ 64) with (SIZE_MAX + 1). lia.
  - unfold signed. destruct neg; [reflexivity|]. apply Z.mod_small. change (2 ^ 64) with (SIZE_MAX + 1). lia.
Qed.

(** ** Reals: what the scanner takes *)

(** What has been scanned after the sign, for each setting of the flags. *)
Inductive scanned : bool -> bool -> bool -> bytes -> Prop :=
| scanned_int ip k n : digits ip k n -> scanned (negb (k =? 0)) false false ip
| scanned_frac ip k n fp k' n' : digits ip k n -> digits fp k' n' -> scanned (negb (k + k' =? 0)) true false (ip ++ [x2e] ++ fp)
| scanned_exp fd p c s m t k n : scanned true fd false p -> c = x65 \/ c = x45 -> sign s m -> digits t k n ->
    scanned true fd true (p ++ [c] ++ s ++ t).

Lemma scanned_mantissa : forall fm fd fs p, scanned fm fd fs p -> fs = false -> fm = true -> forall s m, sign s m -> forall ex e, exponent ex e ->
  is_real (s ++ p ++ ex).
Proof.
  intros fm fd fs p H. destruct H as [ip k n D|ip k n fp k' n' D D'|]; intros E F s0 m0 S0 ex e0 EX; try discriminate.
  - exists m0, (decimal (signed m0 (n * 10 ^ 0 + 0)) (e0 - 0)), s0, ip, [], [], ex, k, n, 0, 0, e0.
    split; [reflexivity|]. split; [exact S0|]. split; [exact D|]. split; [constructor|]. split; [|auto].
    pose proof (digits_nonneg _ _ _ D). destruct (Z.eqb_spec k 0); [discriminate|lia].
  - exists m0, (decimal (signed m0 (n * 10 ^ k' + n')) (e0 - k')), s0, ip, [x2e], fp, ex, k, n, k', n', e0.
    rewrite <- !app_assoc. split; [reflexivity|]. split; [exact S0|]. split; [exact D|]. split; [exact D'|]. split; [|auto].
    pose proof (digits_nonneg _ _ _ D). pose proof (digits_nonneg _ _ _ D'). destruct (Z.eqb_spec (k + k') 0); [discriminate|lia].
Qed.

Lemma scanned_digit : forall fm fd fs p c d, scanned fm fd fs p -> digit_is c d -> scanned true fd fs (p ++ [c]).
Proof.
  intros fm fd fs p c d H DC. destruct H as [ip k n D|ip k n fp k' n' D D'|fd p c0 s m t k n H0 HC S D].
  - replace true with (negb (k + 1 =? 0)); [|pose proof (digits_nonneg _ _ _ D); replace (k + 1 =? 0) with false by (symmetry; apply Z.eqb_neq; lia); reflexivity].
    eapply scanned_int. eapply digits_snoc; eassumption.
  - replace true with (negb (k + (k' + 1) =? 0)) at 1.
    2:{ pose proof (digits_nonneg _ _ _ D). pose proof (digits_nonneg _ _ _ D'). replace (k + (k' + 1) =? 0) with false by (symmetry; apply Z.eqb_neq; lia). reflexivity. }
    rewrite <- !app_assoc. eapply scanned_frac; [exact D|eapply digits_snoc; eassumption].
  - rewrite <- !app_assoc. econstructor; [exact H0|exact HC|exact S|eapply digits_snoc; eassumption].
Qed.

Lemma scanned_opens : forall fm fd fs p s m, scanned fm fd fs p -> sign s m -> opens is_real (s ++ p).
Proof.
  intros fm fd fs p s m H S. exists [x30]. rewrite <- app_assoc. destruct fs.
  - inversion H as [| |fd' p' c s' m' t k n H0 HC S' D]; subst. rewrite <- !app_assoc.
    apply (scanned_mantissa _ _ _ _ H0 eq_refl eq_refl _ _ S _ (signed m' (10 * n + 0))). right. exists c, (s' ++ t ++ [x30]).
    split; [reflexivity|]. split; [exact HC|]. exists s', m', (t ++ [x30]), (k + 1), (10 * n + 0). split; [reflexivity|]. split; [exact S'|].
    split; [apply digits_snoc; [exact D|exact zero_digit]|]. pose proof (digits_nonneg _ _ _ D). split; [lia|reflexivity].
  - pose proof (scanned_digit _ _ _ _ _ _ H zero_digit) as H1.
    rewrite <- (app_nil_r (p ++ [x30])). apply (scanned_mantissa _ _ _ _ H1 eq_refl eq_refl _ _ S [] 0). left. auto.
Qed.

Lemma scan_scanned : forall n b fm fd fs p t r, (List.length b <= n)%nat -> scanned fm fd fs p -> scan_float fm fd fs b = (t, r) ->
  exists w, b = w ++ r /\ exists fm' fd' fs', scanned fm' fd' fs' (p ++ w).
Proof.
  induction n as [|n IH]; intros b fm fd fs p t r L SC H.
  { destruct b; [|cbn in L; lia]. injection H as <- <-. exists []. split; [reflexivity|]. exists fm, fd, fs. rewrite app_nil_r. exact SC. }
  destruct b as [|c b]; [injection H as <- <-; exists []; split; [reflexivity|]; exists fm, fd, fs; rewrite app_nil_r; exact SC|].
  cbn [List.length] in L. cbn [scan_float] in H.
  assert (STEP : forall fm fd fs t' r' l b0, (List.length b0 <= n)%nat -> scanned fm fd fs (p ++ l) -> scan_float fm fd fs b0 = (t', r') ->
    exists w, l ++ b0 = w ++ r' /\ exists fm' fd' fs', scanned fm' fd' fs' (p ++ w)).
  { intros fm0 fd0 fs0 t' r' l b0 L0 S0 E. destruct (IH b0 _ _ _ _ _ _ L0 S0 E) as (w & -> & f1 & f2 & f3 & F). exists (l ++ w).
    split; [rewrite app_assoc; reflexivity|]. exists f1, f2, f3. rewrite app_assoc. exact F. }
  destruct (is_digit c) eqn:DG.
  { destruct (scan_float true fd fs b) as [t' r'] eqn:E. injection H as <- <-. unfold is_digit in DG. destruct (digit_of c) as [d|] eqn:DC; [|discriminate].
    apply digit_of_is in DC. eapply (STEP _ _ _ _ _ [c]); [|eapply scanned_digit; eassumption|exact E]. lia. }
  destruct (Byte.eqb c x2e && negb fd && negb fs) eqn:DOT.
  { destruct (scan_float fm true fs b) as [t' r'] eqn:E. injection H as <- <-. rewrite !andb_true_iff, !negb_true_iff in DOT. destruct DOT as [[C ->] ->].
    apply Byte.byte_dec_bl in C. subst c. eapply (STEP _ _ _ _ _ [x2e]); [lia| |exact E].
    inversion SC as [ip k m D| |]; subst. replace (negb (k =? 0)) with (negb (k + 0 =? 0)) by (rewrite Z.add_0_r; reflexivity).
    change [x2e] with ([x2e] ++ @nil byte). eapply scanned_frac; [exact D|constructor]. }
  destruct ((Byte.eqb c x65 || Byte.eqb c x45) && negb fs && fm) eqn:EE.
  2:{ injection H as <- <-. exists []. split; [reflexivity|]. exists fm, fd, fs. rewrite app_nil_r. exact SC. }
  rewrite !andb_true_iff, orb_true_iff, negb_true_iff in EE. destruct EE as [[EE ->] ->].
  assert (HC : c = x65 \/ c = x45) by (destruct EE as [X|X]; apply Byte.byte_dec_bl in X; auto).
  assert (GEN : (let (t, r) := scan_float true fd true b in (x65 :: t, r)) = (t, r) ->
    exists w, c :: b = w ++ r /\ exists fm' fd' fs', scanned fm' fd' fs' (p ++ w)).
  { intro HX. destruct (scan_float true fd true b) as [t' r'] eqn:E. injection HX as <- <-.
    eapply (STEP _ _ _ _ _ [c]); [lia| |exact E]. apply (scanned_exp fd p c [] false [] 0 0); auto; constructor. }
  destruct b as [|c2 b2]; [apply GEN; exact H|].
  assert (TWO : forall s m, sign [s] m -> (let (t, r) := scan_float true fd true b2 in (x65 :: s :: t, r)) = (t, r) -> c2 = s ->
    exists w, c :: c2 :: b2 = w ++ r /\ exists fm' fd' fs', scanned fm' fd' fs' (p ++ w)).
  { intros s m S HX ->. destruct (scan_float true fd true b2) as [t' r'] eqn:E. injection HX as <- <-.
    cbn [List.length] in L. eapply (STEP _ _ _ _ _ [c; s]); [lia| |exact E].
    exact (scanned_exp fd p c [s] m [] 0 0 SC HC S digits_nil). }
  destruct c2; try (apply GEN; exact H); (eapply TWO; [|exact H|reflexivity]; constructor).
Qed.

(** What is scanned before [x] is scanned before anything else. *)
Lemma scan_prefix : forall n w fm fd fs x r, (List.length w <= n)%nat -> (left_by fm fd fs (w ++ x) <= List.length x)%nat ->
  (left_by fm fd fs (w ++ r) <= List.length r)%nat.
Proof.
  induction n as [|n IH]; intros w fm fd fs x r L H.
  { destruct w; [|cbn in L; lia]. apply (left_by_short (List.length r)). lia. }
  destruct w as [|c w]; [apply (left_by_short (List.length r)); lia|]. cbn [List.length] in L. cbn [app] in *. unfold left_by in *. cbn [scan_float] in *.
  destruct (is_digit c).
  { pose proof (IH w true fd fs x r ltac:(lia)) as I. unfold left_by in I. destruct (scan_float true fd fs (w ++ x)), (scan_float true fd fs (w ++ r)). auto. }
  destruct (Byte.eqb c x2e && negb fd && negb fs).
  { pose proof (IH w fm true fs x r ltac:(lia)) as I. unfold left_by in I. destruct (scan_float fm true fs (w ++ x)), (scan_float fm true fs (w ++ r)). auto. }
  destruct ((Byte.eqb c x65 || Byte.eqb c x45) && negb fs && fm).
  2:{ cbn [snd List.length] in H. rewrite app_length in H. lia. }
  destruct w as [|c2 w].
  - cbn [app]. assert (S : forall b, (List.length (snd (scan_float fm fd true b)) <= List.length b)%nat) by (intro b; apply (left_by_short (List.length b)); lia).
    destruct r as [|c2 r].
    + specialize (S []). destruct (scan_float fm fd true []). exact S.
    + pose proof (S (c2 :: r)) as S1. pose proof (S r) as S2.
      destruct c2; try (destruct (scan_float fm fd true (_ :: r)); exact S1);
        (destruct (scan_float fm fd true r); cbn [snd List.length] in *; lia).
  - cbn [app] in *. pose proof (IH (c2 :: w) fm fd true x r ltac:(cbn [List.length] in *; lia)) as I1.
    pose proof (IH w fm fd true x r ltac:(cbn [List.length] in *; lia)) as I2. unfold left_by in I1, I2. cbn [app] in I1.
    destruct c2; try (destruct (scan_float fm fd true (_ :: w ++ x)), (scan_float fm fd true (_ :: w ++ r)); exact (I1 H));
      (destruct (scan_float fm fd true (w ++ x)), (scan_float fm fd true (w ++ r)); exact (I2 H)).
Qed.

(** A real, after its sign, is scanned to the end. *)
Lemma real_scan_end : forall w m q, real w m q -> exists s body, w = s ++ body /\ sign s m /\ body <> [] /\ no_sign body /\ left_by false false false body = O.
Proof.
  intros w m q (s & ip & p & fp & ex & ki & ni & kf & nf & e & -> & S & D1 & D2 & K & PP & EX & _).
  exists s, (ip ++ p ++ fp ++ ex). split; [reflexivity|]. split; [exact S|].
  assert (H : ip ++ p ++ fp ++ ex <> [] /\ no_sign (ip ++ p ++ fp ++ ex)).
  { destruct ip as [|x ip].
    - destruct PP as [-> |[-> ->]]; [split; [discriminate|intros c l X; injection X as <- _; split; discriminate]|].
      apply digits_empty in D1. apply digits_empty in D2. lia.
    - split; [discriminate|]. intros c l X. destruct (digits_head _ _ _ D1 _ _ _ ltac:(discriminate) X) as (d & HD). eapply digit_no_sign. exact HD. }
  destruct H as [H1 H2]. split; [exact H1|]. split; [exact H2|].
  rewrite (left_by_digits _ _ _ D1). cbn [orb]. apply Nat.le_0_r. change O with (List.length (@nil byte)).
  destruct PP as [-> |[-> ->]].
  - cbn [app]. unfold left_by at 1. cbn [scan_float]. change (is_digit x2e) with false. change (Byte.eqb x2e x2e && negb false && negb false) with true. cbv iota.
    transitivity (left_by (negb (ki =? 0)) true false (fp ++ ex)).
    { unfold left_by. destruct (scan_float (negb (ki =? 0)) true false (fp ++ ex)). apply le_n. }
    rewrite (left_by_digits _ _ _ D2).
    replace (negb (ki =? 0) || negb (kf =? 0)) with true.
    + rewrite <- (app_nil_r ex). eapply left_by_exponent. exact EX.
    + symmetry. destruct (ki =? 0) eqn:K1; [|reflexivity]. destruct (kf =? 0) eqn:K2; [|reflexivity]. apply Z.eqb_eq in K1, K2. lia.
  - cbn [app]. apply digits_empty in D2. pose proof (digits_nonneg _ _ _ D1) as [N1 _].
    replace (ki =? 0) with false by (symmetry; apply Z.eqb_neq; lia). rewrite <- (app_nil_r ex). eapply left_by_exponent. exact EX.
Qed.

Lemma real_takes : forall b neg b1 t r, take_sign b = (neg, b1) -> scan_float false false false b1 = (t, r) ->
  exists s w, sign s neg /\ b1 = w ++ r /\ takes is_real b (s ++ w) r.
Proof.
  intros b neg b1 t r ES EF. pose proof (take_sign_is _ _ _ ES) as (s & EB & S).
  destruct (scan_scanned (List.length b1) b1 _ _ _ [] t r (le_n _) (scanned_int [] 0 0 digits_nil) EF) as (w & E1 & fm & fd & fs & SC).
  exists s, w. split; [exact S|]. split; [exact E1|]. split; [rewrite EB, E1, app_assoc; reflexivity|].
  split; [eapply scanned_opens; eassumption|].
  intros w' r' E (x & m & q & RQ).
  assert (L : (List.length r <= List.length r')%nat).
  { rewrite <- app_assoc, <- E1, <- EB in E. destruct (real_scan_end _ _ _ RQ) as (s' & body & EX & S' & NE & NS & LB).
    destruct (sign_prefix _ _ _ _ _ S' EX) as [-> |(w1 & -> & E2)].
    - cbn [app] in E. subst r'. rewrite EB, E1, !app_length. lia.
    - assert (X : take_sign (s' ++ w1 ++ r') = (m, w1 ++ r') \/ (s' = [] /\ w1 = [])).
      { destruct w1 as [|c w1].
        - destruct S'; [right; auto|left; reflexivity|left; reflexivity].
        - left. apply sign_take; [exact S'|]. intros c' l' X. injection X as <- _. eapply NS. symmetry. exact E2. }
      destruct X as [X|[-> ->]].
      + rewrite app_assoc, E, ES in X. injection X as _ X.
        replace (List.length r) with (left_by false false false b1) by (unfold left_by; rewrite EF; reflexivity). rewrite X.
        apply (scan_prefix (List.length w1) w1 false false false x); [lia|]. rewrite E2, LB. apply Nat.le_0_l.
      + cbn [app] in E. subst r'. rewrite EB, E1, !app_length. lia. }
  apply (f_equal (@List.length _)) in E. rewrite !app_length in *. lia.
Qed.

(** ** Reals: the value *)

Definition lower (c : byte) : byte := match c with x45 => x65 | _ => c end.

Lemma scan_lower : forall n b fm fd fs t r, (List.length b <= n)%nat -> scan_float fm fd fs b = (t, r) ->
  exists w, b = w ++ r /\ t = map lower w.
Proof.
  induction n as [|n IH]; intros b fm fd fs t r L H.
  { destruct b; [|cbn in L; lia]. injection H as <- <-. exists []. auto. }
  destruct b as [|c b]; [injection H as <- <-; exists []; auto|].
  cbn [List.length] in L. cbn [scan_float] in H.
  assert (STEP : forall fm fd fs t' r' c' b0, (List.length b0 <= n)%nat -> scan_float fm fd fs b0 = (t', r') -> lower c = c' ->
    exists w, c :: b0 = w ++ r' /\ c' :: t' = map lower w).
  { intros fm0 fd0 fs0 t' r' c' b0 L0 E SE. destruct (IH b0 _ _ _ _ _ L0 E) as (w & -> & ->). exists (c :: w). subst c'. auto. }
  destruct (is_digit c) eqn:DG.
  { destruct (scan_float true fd fs b) as [t' r'] eqn:E. injection H as <- <-. eapply STEP; [|exact E|]; [lia|]. destruct c; try discriminate DG; reflexivity. }
  destruct (Byte.eqb c x2e && negb fd && negb fs) eqn:DOT.
  { destruct (scan_float fm true fs b) as [t' r'] eqn:E. injection H as <- <-. eapply STEP; [|exact E|]; [lia|].
    rewrite !andb_true_iff in DOT. destruct DOT as [[C _] _]. apply Byte.byte_dec_bl in C. subst c. reflexivity. }
  destruct ((Byte.eqb c x65 || Byte.eqb c x45) && negb fs && fm) eqn:EE.
  2:{ injection H as <- <-. exists []. auto. }
  assert (SE : lower c = x65).
  { rewrite !andb_true_iff, orb_true_iff in EE. destruct EE as [[[X|X] _] _]; apply Byte.byte_dec_bl in X; subst c; reflexivity. }
  assert (GEN : (let (t, r) := scan_float fm fd true b in (x65 :: t, r)) = (t, r) -> exists w, c :: b = w ++ r /\ t = map lower w).
  { intro HX. destruct (scan_float fm fd true b) as [t' r'] eqn:E. injection HX as <- <-. eapply STEP; [|exact E|exact SE]. lia. }
  destruct b as [|c2 b2]; [apply GEN; exact H|].
  assert (TWO : forall s, lower s = s -> (let (t, r) := scan_float fm fd true b2 in (x65 :: s :: t, r)) = (t, r) -> c2 = s ->
    exists w, c :: c2 :: b2 = w ++ r /\ t = map lower w).
  { intros s LS HX ->. destruct (scan_float fm fd true b2) as [t' r'] eqn:E. injection HX as <- <-.
    cbn [List.length] in L. destruct (IH b2 _ _ _ _ _ ltac:(lia) E) as (w & -> & ->). exists (c :: s :: w).
    split; [reflexivity|]. cbn [map]. rewrite SE, LS. reflexivity. }
  destruct c2; try (apply GEN; exact H); (eapply TWO; [|exact H|reflexivity]; reflexivity).
Qed.

Lemma all_digits_lower : forall t, all_digits t -> map lower t = t.
Proof. intros t H. induction H as [|c t C H IH]; [reflexivity|]. cbn [map]. rewrite IH. f_equal. destruct c; try reflexivity; elim C; reflexivity. Qed.
Lemma sign_lower : forall s m, sign s m -> map lower s = s.
Proof. intros s m []; reflexivity. Qed.

Lemma take_digits_all : forall t k n x, digits t k n -> stops x -> exists ds, take_digits (t ++ x) = (ds, x) /\ zlen ds = k.
Proof.
  intros t k n x D S. destruct (take_digits (t ++ x)) as [ds r] eqn:E.
  pose proof (all_digits_past t x (digits_all _ _ _ D)) as P. rewrite E in P. cbn [snd] in P.
  assert (X : take_digits x = ([], x)). { destruct x as [|c x]; [reflexivity|]. cbn [take_digits]. rewrite (S c x eq_refl). reflexivity. }
  rewrite X in P. cbn [snd] in P. subst r. exists ds. split; [reflexivity|]. apply take_digits_is in E. destruct E as (t' & E & D').
  apply app_inv_tail in E. subst t'. destruct (digits_unique _ _ _ D _ _ D'). auto.
Qed.

Lemma parse_exp_some : forall w e, exponent w e -> parse_exp (map lower w) <> None /\ stops (map lower w) /\
  (forall l, map lower w <> x2e :: l).
Proof.
  intros w e [[-> _]|(c & t & -> & HC & (s & m & u & k & n & -> & S & D & K & _))]; [repeat split; discriminate|].
  replace (map lower (c :: s ++ u)) with (x65 :: s ++ u).
  2:{ cbn [map]. rewrite map_app, (sign_lower _ _ S), (all_digits_lower _ (digits_all _ _ _ D)). destruct HC as [-> | ->]; reflexivity. }
  split; [|split; [intros x l X; injection X as <- _; reflexivity|discriminate]].
  cbn [parse_exp]. assert (T : take_sign (s ++ u) = (m, u)).
  { pose proof (sign_take s m u [] S) as X. rewrite app_nil_r in X. apply X. intros c' l Y. eapply digits_no_sign; eassumption. }
  rewrite T. destruct (take_digits_all u k n [] D ltac:(intros ? ? ?; discriminate)) as (ds & E & L). rewrite app_nil_r in E. rewrite E.
  destruct ds as [|d ds]; [cbn in L; lia|discriminate].
Qed.

Lemma parse_dec_some : forall w m q, real w m q -> forall s body, w = s ++ body -> sign s m -> no_sign body -> parse_dec (map lower body) <> None.
Proof.
  intros w m q (s' & ip & p & fp & ex & ki & ni & kf & nf & e & -> & S' & D1 & D2 & K & PP & EX & _) s body E S NB.
  assert (NS : no_sign (ip ++ p ++ fp ++ ex)).
  { intros c l X. destruct ip as [|x ip].
    - apply digits_empty in D1. destruct PP as [-> |[-> ->]]; [injection X as <- _; split; discriminate|]. apply digits_empty in D2. lia.
    - destruct (digits_head _ _ _ D1 _ _ _ ltac:(discriminate) X) as (d & HD). eapply digit_no_sign. exact HD. }
  destruct (sign_split _ _ _ _ _ _ S' S NS NB E) as [_ <-]. clear E NB NS.
  rewrite !map_app, (all_digits_lower _ (digits_all _ _ _ D1)), (all_digits_lower _ (digits_all _ _ _ D2)).
  destruct (parse_exp_some _ _ EX) as (PE & SX & NX). set (x := map lower ex) in *. clearbody x. unfold parse_dec.
  destruct PP as [-> |[-> ->]].
  - change (map lower [x2e]) with [x2e]. destruct (take_digits_all ip ki ni ([x2e] ++ fp ++ x) D1) as (d1 & -> & L1).
    { intros c l X. injection X as <- _. reflexivity. }
    cbn [app]. destruct (take_digits_all fp kf nf x D2 SX) as (d2 & -> & L2).
    destruct (parse_exp x); [|congruence]. destruct (d1 ++ d2) eqn:Q; [|discriminate].
    apply app_eq_nil in Q. destruct Q as [-> ->]. cbn in L1, L2. lia.
  - cbn [map app]. destruct (take_digits_all ip ki ni x D1 SX) as (d1 & -> & L1). apply digits_empty in D2.
    assert (M : match x with x2e :: b1' => take_digits b1' | _ => (@nil Z, x) end = ([], x)).
    { destruct x as [|c x]; [reflexivity|]. destruct c; try reflexivity. elim (NX x eq_refl). }
    match goal with |- (let (fp, b2) := ?y in _) <> None => replace y with (@nil Z, x) by (symmetry; exact M) end.
    rewrite app_nil_r. destruct (parse_exp x); [|congruence]. destruct d1; [cbn in L1; lia|discriminate].
Qed.

Lemma overflow : forall N d, 0 <= N -> 0 < d -> (inf_mag <= round_u N d <-> (2 ^ 54 - 1) * 2 ^ 2044 * d <= N).
Proof.
  intros N d HN Hd.
  assert (U1 : mag_units max_mag = (2 ^ 54 - 2) * 2 ^ 2044) by (vm_compute; reflexivity).
  assert (U2 : mag_units inf_mag = 2 ^ 54 * 2 ^ 2044) by (vm_compute; reflexivity).
  assert (P : 0 < 2 ^ 2044) by reflexivity. set (H := 2 ^ 2044) in *. clearbody H.
  pose proof (round_u_nonneg N d HN Hd) as R0. split; intro C.
  - pose proof (round_u_closest N d max_mag HN Hd ltac:(discriminate)) as X. cbv zeta in X. set (b := round_u N d) in *.
    assert (LB : mag_units inf_mag <= mag_units b).
    { destruct (Z.eq_dec b inf_mag) as [-> |NE]; [reflexivity|]. apply Z.lt_le_incl, mag_units_mono. unfold inf_mag in *. lia. }
    rewrite U1 in X. rewrite U2 in LB. destruct X as [X|[X|[X _]]]; [|exfalso; unfold max_mag, inf_mag in *; lia|];
      (set (u := mag_units b) in *; clearbody u b; assert (2 ^ 54 * H * d <= u * d) by nia; change (2 ^ 54) with 18014398509481984 in *; nia).
  - assert (0 <= inf_mag) by discriminate. destruct (Z.le_gt_cases inf_mag (round_u N d)) as [G|G]; [exact G|exfalso].
    pose proof (round_u_closest N d inf_mag HN Hd ltac:(discriminate)) as X. cbv zeta in X. set (b := round_u N d) in *.
    assert (UB : mag_units b <= mag_units max_mag).
    { destruct (Z.eq_dec b max_mag) as [-> |NE]; [reflexivity|]. apply Z.lt_le_incl, mag_units_mono. unfold max_mag, inf_mag in *. lia. }
    assert (EV : b = max_mag -> Z.even b = false) by (intros ->; reflexivity).
    assert (ST : b <> max_mag -> mag_units b < mag_units max_mag).
    { intro NE. apply mag_units_mono. unfold max_mag, inf_mag in *. lia. }
    assert (NB : 0 <= mag_units b) by (apply mag_units_nonneg; exact R0).
    rewrite U2 in X. rewrite U1 in UB, ST. change (2 ^ 54) with 18014398509481984 in *.
    assert (UD : mag_units b * d <= (18014398509481984 - 2) * H * d) by nia.
    destruct X as [X|[X|[X E]]]; [|lia|].
    + set (u := mag_units b * d) in *. clearbody u. nia.
    + destruct (Z.eq_dec b max_mag) as [EQ|NE]; [rewrite (EV EQ) in E; discriminate|].
      assert (UD2 : mag_units b * d < (18014398509481984 - 2) * H * d) by (specialize (ST NE); nia).
      set (u := mag_units b * d) in *. clearbody u. nia.
Qed.

Lemma limit_den : forall neg N d, 0 <= N -> ((dbl_limit <= Qabs (sgn neg N # den d))%Q <-> (2 ^ 54 - 1) * 2 ^ 2044 * Z.pos d <= N).
Proof.
  intros neg N d HN.
  assert (A : Qabs (sgn neg N # den d) = (N # den d)%Q).
  { unfold Qabs. f_equal. unfold sgn. destruct neg; [rewrite Z.abs_opp|]; apply Z.abs_eq; exact HN. }
  rewrite A. unfold dbl_limit, inject_Z, Qle, den. cbn [Qnum Qden]. rewrite Pos2Z.inj_mul, Z2Pos.id by reflexivity. rewrite Z.mul_1_r.
  change (2 ^ 2044) with (2 ^ (970 + 1074)). rewrite Z.pow_add_r by discriminate. split; intro H; lia.
Qed.

Lemma double_takes : forall b, exists w r v fl, takes is_real b w r /\ real_read w v fl /\ extract_double b = (v, fl, r).
Proof.
  intro b. unfold extract_double. destruct (take_sign b) as [neg b1] eqn:ES. destruct (scan_float false false false b1) as [t r] eqn:EF.
  destruct (real_takes _ _ _ _ _ ES EF) as (s & w & S & E1 & T).
  destruct (scan_lower (List.length b1) b1 _ _ _ _ _ (le_n _) EF) as (w' & E1' & ET). rewrite E1 in E1'. apply app_inv_tail in E1'. subst w'.
  destruct (scan_is (List.length b1) b1 _ _ _ _ _ (le_n _) EF) as (w' & E1' & F). rewrite E1 in E1'. apply app_inv_tail in E1'. subst w'.
  destruct (parse_dec t) as [[m e]|] eqn:EP.
  - destruct (parse_dec_is _ _ _ EP w F s neg S) as [Hm HR]. cbv zeta.
    destruct (decimal_den neg m e Hm) as (N & d & HN & ER & EQ). rewrite ER.
    pose proof (overflow N (Z.pos d) HN ltac:(reflexivity)) as OV. rewrite <- (limit_den neg N d HN) in OV. rewrite <- EQ in OV.
    destruct (Z.leb_spec inf_mag (round_u N (Z.pos d))) as [C|C].
    + do 4 eexists. split; [exact T|]. split; [|reflexivity]. apply OV in C. exact (real_read_out _ _ _ HR C).
    + do 4 eexists. split; [exact T|]. split; [|reflexivity]. eapply real_read_ok; [exact HR| | |].
      * apply Qnot_le_lt. intro G. apply OV in G. lia.
      * apply (closest_double_Qeq (sgn neg N # den d)); [symmetry; exact EQ|]. apply closest_double_den; assumption.
      * change (dneg (mk_dbl neg (round_u N (Z.pos d))) = neg). apply dneg_mk. split; [apply round_u_nonneg; [exact HN|reflexivity]|exact C].
  - do 4 eexists. split; [exact T|]. split; [|reflexivity]. apply real_read_none. intros (m & q & R). subst t.
    destruct (real_scan_end _ _ _ R) as (s' & body & EX & S' & NE & NS & _).
    assert (X : take_sign (s' ++ body ++ r) = (m, body ++ r)).
    { apply sign_take; [exact S'|]. intros c l X. destruct body as [|c' body]; [congruence|]. injection X as <- _. eapply NS. reflexivity. }
    pose proof (proj1 T) as EB. rewrite app_assoc, <- EX, <- EB, ES in X. injection X as -> X. rewrite E1 in X. apply app_inv_tail in X. subst body.
    exact (parse_dec_some _ _ _ R _ _ EX S' NS EP).
Qed.

(** ** Streams *)

Lemma num_stream : forall A (ext : bytes -> A * bool * bytes) (P : bytes -> bytes -> bytes -> Prop) (K : bytes -> A -> bool -> Prop) old u c b,
  (forall b, exists w r v fl, P b w r /\ K w v fl /\ ext b = (v, fl, r)) -> blank u -> is_ws c = false ->
  exists w r v fl, P (c :: b) w r /\ K w v fl /\ rd_num ext old (opened (u ++ c :: b)) = (v, at_rest r fl).
Proof.
  intros A ext P K old u c b H B C. destruct (H (c :: b)) as (w & r & v & fl & HP & HK & E). exists w, r, v, fl. split; [exact HP|]. split; [exact HK|].
  unfold rd_num, sentry. cbn [opened good eofb failb negb andb IStream.rest].
  assert (W : skip_ws (u ++ c :: b) = c :: b).
  { clear -B C. induction B as [|x u X B IH]; cbn [app skip_ws]; [rewrite C; reflexivity|rewrite X; exact IH]. }
  rewrite W. cbn [with_rest IStream.rest]. rewrite E. unfold at_end, at_rest. destruct r, fl; reflexivity.
Qed.

(** ** The description leaves no choice *)

Lemma takes_one : forall P b w r w' r', takes P b w r -> takes P b w' r' -> w = w' /\ r = r'.
Proof. intros P b w r w' r' (-> & O & L) (E & O' & L'). exact (longest_same (opens P) w r w' r' L L' O O' E). Qed.

Lemma int_read_one : forall w v fl v' fl', int_read w v fl -> int_read w v' fl' -> v = v' /\ fl = fl'.
Proof.
  intros w v fl v' fl' H H'.
  destruct H as [z I C|z I C|z I C|N], H' as [z' I' C'|z' I' C'|z' I' C'|N']; try (exfalso; apply N; eexists; exact I');
    try (exfalso; apply N'; eexists; exact I); try (pose proof (integer_unique _ _ _ I I'); subst); split; auto; exfalso; lia.
Qed.
Lemma size_read_one : forall w v fl v' fl', size_read w v fl -> size_read w v' fl' -> v = v' /\ fl = fl'.
Proof.
  intros w v fl v' fl' H H'.
  destruct H as [z I C|z I C|N], H' as [z' I' C'|z' I' C'|N']; try (exfalso; apply N; eexists; exact I');
    try (exfalso; apply N'; eexists; exact I); try (pose proof (integer_unique _ _ _ I I'); subst); split; auto; exfalso; lia.
Qed.
Lemma real_read_one : forall w v fl v' fl', real_read w v fl -> real_read w v' fl' -> v = v' /\ fl = fl'.
Proof.
  intros w v fl v' fl' H H'.
  destruct H as [m q x I C D S|m q I C|N], H' as [m' q' x' I' C' D' S'|m' q' I' C'|N']; try (exfalso; apply N; do 2 eexists; exact I');
    try (exfalso; apply N'; do 2 eexists; exact I); try (destruct (real_unique _ _ _ _ _ I I') as [<- <-]); auto.
  - split; [|reflexivity]. eapply closest_double_unique; [exact D|exact D'|]. unfold dneg. change two63 with (2 ^ 63). congruence.
  - exfalso. exact (Qlt_not_le _ _ C C').
  - exfalso. exact (Qlt_not_le _ _ C' C).
Qed.
