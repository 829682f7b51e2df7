(** What the extractors accept is a numeral. *)

From Verif Require Import Model.IStream Spec.Told Proofs.BytesP Proofs.DblP Proofs.RtBase Proofs.ShowP Proofs.RoundP Proofs.NumeralsP.

Ltac Zify.zify_post_hook ::= idtac.

Lemma digit_of_is : forall c d, digit_of c = Some d -> digit_is c d.
Proof.
  intros c d H. destruct c; try discriminate H; injection H as <-; split; vm_compute; try reflexivity; split; discriminate.
Qed.

Lemma digits_val_snoc : forall ds d, digits_val (ds ++ [d]) = 10 * digits_val ds + d.
Proof. intros ds d. unfold digits_val. rewrite fold_left_app. cbn [fold_left]. lia. Qed.

Lemma take_digits_acc : forall b ds r w k n, take_digits b = (ds, r) -> digits w k n ->
  exists t, b = t ++ r /\ digits (w ++ t) (k + zlen ds) (fold_left (fun a d => 10 * a + d) ds n).
Proof.
  induction b as [|c b IH]; intros ds r w k n H D; cbn [take_digits] in H.
  - injection H as <- <-. exists []. rewrite (app_nil_r w). cbn [zlen List.length Z.of_nat fold_left]. rewrite Z.add_0_r. auto.
  - destruct (digit_of c) as [d|] eqn:E.
    + destruct (take_digits b) as [ds' r'] eqn:E'. injection H as <- <-.
      destruct (IH ds' r' (w ++ [c]) (k + 1) (10 * n + d) eq_refl) as (t & -> & D').
      { apply digits_snoc; [exact D|apply digit_of_is; exact E]. }
      exists (c :: t). split; [reflexivity|]. rewrite <- app_assoc in D'. cbn [fold_left].
      replace (k + zlen (d :: ds')) with (k + 1 + zlen ds') by (unfold zlen; cbn [List.length]; lia). exact D'.
    + injection H as <- <-. exists []. rewrite (app_nil_r w). cbn [zlen List.length Z.of_nat fold_left]. rewrite Z.add_0_r. auto.
Qed.

Lemma take_digits_is : forall b ds r, take_digits b = (ds, r) ->
  exists t, b = t ++ r /\ digits t (zlen ds) (digits_val ds).
Proof. intros b ds r H. exact (take_digits_acc b ds r [] 0 0 H digits_nil). Qed.

Lemma take_sign_is : forall b neg r, take_sign b = (neg, r) -> exists s, b = s ++ r /\ sign s neg.
Proof.
  intros b neg r H. destruct b as [|c b]; [injection H as <- <-; exists []; split; [reflexivity|constructor]|].
  destruct c; try (injection H as <- <-; exists []; split; [reflexivity|constructor]).
  - injection H as <- <-. exists [x2b]. split; [reflexivity|constructor].
  - injection H as <- <-. exists [x2d]. split; [reflexivity|constructor].
Qed.

Lemma some_digits : forall (d : Z) ds, 1 <= zlen (d :: ds).
Proof. intros. unfold zlen. cbn [List.length]. lia. Qed.

(** ** Nothing longer is an integer *)

Lemma digit_is_of : forall c d, digit_is c d -> digit_of c = Some d.
Proof.
  intros c d [Hd E]. remember (48 + d) as q eqn:Q. destruct c; vm_compute in E; try (exfalso; lia); cbn [digit_of]; f_equal; lia.
Qed.

Lemma take_digits_short : forall b, (List.length (snd (take_digits b)) <= List.length b)%nat.
Proof.
  induction b as [|c b IH]; cbn [take_digits]; [auto|]. destruct (digit_of c); [|auto]. destruct (take_digits b). cbn [snd List.length] in *. lia.
Qed.
Lemma take_digits_past : forall t k n, digits t k n -> forall b, (List.length (snd (take_digits (t ++ b))) <= List.length b)%nat.
Proof.
  intros t k n H. induction H as [|w k n c d H IH D]; intro b; [apply take_digits_short|]. rewrite <- app_assoc. cbn [app].
  assert (G : forall w, Forall (fun c => exists d, digit_is c d) w -> snd (take_digits (w ++ c :: b)) = snd (take_digits b)).
  { intros l F. induction F as [|x l (e & X) F IHF]; cbn [app take_digits].
    - rewrite (digit_is_of _ _ D). destruct (take_digits b). reflexivity.
    - rewrite (digit_is_of _ _ X). destruct (take_digits (l ++ c :: b)). exact IHF. }
  rewrite G; [apply take_digits_short|]. clear -H. induction H as [|w k n c d H IH D]; [constructor|]. apply Forall_app. split; [exact IH|eauto].
Qed.

Lemma sign_take : forall s minus t b, sign s minus -> (forall c l, t ++ b = c :: l -> c <> x2b /\ c <> x2d) -> take_sign (s ++ t ++ b) = (minus, t ++ b).
Proof.
  intros s minus t b S H. destruct S; try reflexivity. cbn [app]. destruct (t ++ b) as [|c l]; [reflexivity|].
  destruct (H c l eq_refl) as [N1 N2]. destruct c; try reflexivity; [elim N1|elim N2]; reflexivity.
Qed.
Lemma digits_head : forall t k n, digits t k n -> forall b c l, t <> [] -> t ++ b = c :: l -> exists d, digit_is c d.
Proof.
  intros t k n H. induction H as [|w k n c d H IH D]; intros b x l N E; [congruence|].
  destruct w as [|y w]; [injection E as <- _; eauto|]. rewrite <- app_assoc in E. eapply IH; [discriminate|exact E].
Qed.
Lemma digit_no_sign : forall c d, digit_is c d -> c <> x2b /\ c <> x2d.
Proof. intros c d [Hd E]. split; intros ->; [change (43 = 48 + d) in E|change (45 = 48 + d) in E]; lia. Qed.
Lemma digits_some : forall t k n, digits t k n -> 1 <= k -> t <> [].
Proof. intros t k n H K. destruct H; [lia|]. destruct w; discriminate. Qed.

Lemma integer_longest : forall b neg b1 ds r w, take_sign b = (neg, b1) -> take_digits b1 = (ds, r) -> b = w ++ r -> longest is_integer w r.
Proof.
  intros b neg b1 ds r w ES ED EB w' r' E (z & s & minus & t & k & n & -> & S & D & K & _).
  rewrite <- EB, <- app_assoc in E. rewrite <- E in ES. rewrite (sign_take _ _ _ _ S) in ES.
  - injection ES as _ <-. pose proof (take_digits_past _ _ _ D r') as L. rewrite ED in L. cbn [snd] in L.
    apply (f_equal (@List.length _)) in E. rewrite EB, !app_length in E. rewrite !app_length. lia.
  - intros c l X. destruct (digits_head _ _ _ D _ _ _ (digits_some _ _ _ D K) X) as (d & HD). eapply digit_no_sign. exact HD.
Qed.

Lemma extract_int_is : forall b v r, extract_int b = (v, false, r) -> exists w, b = w ++ r /\ int_written v w r.
Proof.
  intros b v r H. unfold extract_int in H.
  destruct (take_sign b) as [neg b1] eqn:ES. destruct (take_digits b1) as [ds b2] eqn:ED.
  pose proof (fun w => integer_longest b neg b1 ds b2 w ES ED) as LG.
  apply take_sign_is in ES. destruct ES as (s & -> & S). apply take_digits_is in ED. destruct ED as (t & -> & D).
  destruct ds as [|d ds]; [discriminate|]. cbv zeta in H.
  destruct (_ <? INT_MIN) eqn:C1; [discriminate|]. destruct (INT_MAX <? _) eqn:C2; [discriminate|].
  injection H as <- <-. apply Z.ltb_ge in C1, C2. exists (s ++ t). rewrite app_assoc. split; [reflexivity|].
  split; [|apply LG; rewrite app_assoc; reflexivity]. split.
  - exists s, neg, t, (zlen (d :: ds)), (digits_val (d :: ds)). repeat split; auto. apply some_digits.
  - unfold int_ok. split; assumption.
Qed.

Lemma digits_nonneg : forall w k n, digits w k n -> 0 <= k /\ 0 <= n.
Proof. intros w k n H. induction H as [|w k n c d H IH [Hd _]]; lia. Qed.

Lemma extract_size_is : forall b v r, extract_size b = (v, false, r) -> exists w, b = w ++ r /\ size_written v w r.
Proof.
  intros b v r H. unfold extract_size in H.
  destruct (take_sign b) as [neg b1] eqn:ES. destruct (take_digits b1) as [ds b2] eqn:ED.
  pose proof (fun w => integer_longest b neg b1 ds b2 w ES ED) as LG.
  apply take_sign_is in ES. destruct ES as (s & -> & S). apply take_digits_is in ED. destruct ED as (t & -> & D).
  destruct ds as [|d ds]; [discriminate|]. cbv zeta in H.
  destruct (SIZE_MAX <? _) eqn:C; [discriminate|].
  injection H as <- <-. apply Z.ltb_ge in C. exists (s ++ t). rewrite app_assoc. split; [reflexivity|].
  split; [|apply LG; rewrite app_assoc; reflexivity].
  pose proof (digits_nonneg _ _ _ D) as [_ N]. set (x := digits_val (d :: ds)) in *.
  exists (signed neg x). split; [|split].
  - exists s, neg, t, (zlen (d :: ds)), x. repeat split; auto. apply some_digits.
  - change (2 ^ 64) with (SIZE_MAX + 1). unfold signed. destruct neg; lia.
  - unfold signed. destruct neg; [reflexivity|]. symmetry. apply Z.mod_small. change (2 ^ 64) with (SIZE_MAX + 1). lia.
Qed.

(** ** Reals *)

(** The scanner writes e for E. *)
Definition same_e (a b : byte) : Prop := a = b \/ (a = x45 /\ b = x65).

Lemma scan_is : forall n b fm fd fs t r, (List.length b <= n)%nat -> scan_float fm fd fs b = (t, r) ->
  exists w, b = w ++ r /\ Forall2 same_e w t.
Proof.
  induction n as [|n IH]; intros b fm fd fs t r L H.
  { destruct b; [|cbn in L; lia]. injection H as <- <-. exists []. split; [reflexivity|constructor]. }
  destruct b as [|c b]; [injection H as <- <-; exists []; split; [reflexivity|constructor]|].
  cbn [List.length] in L. cbn [scan_float] in H.
  assert (STEP : forall fm fd fs t' r' c' b0, (List.length b0 <= n)%nat -> scan_float fm fd fs b0 = (t', r') -> same_e c c' ->
    exists w, c :: b0 = w ++ r' /\ Forall2 same_e w (c' :: t')).
  { intros fm0 fd0 fs0 t' r' c' b0 L0 E SE. destruct (IH b0 _ _ _ _ _ L0 E) as (w & -> & F). exists (c :: w).
    split; [reflexivity|constructor; assumption]. }
  destruct (is_digit c).
  { destruct (scan_float true fd fs b) as [t' r'] eqn:E. injection H as <- <-. eapply STEP; [|exact E|left; reflexivity]. lia. }
  destruct (Byte.eqb c x2e && negb fd && negb fs).
  { destruct (scan_float fm true fs b) as [t' r'] eqn:E. injection H as <- <-. eapply STEP; [|exact E|left; reflexivity]. lia. }
  destruct ((Byte.eqb c x65 || Byte.eqb c x45) && negb fs && fm) eqn:EE.
  2:{ injection H as <- <-. exists []. split; [reflexivity|constructor]. }
  assert (SE : same_e c x65).
  { rewrite !andb_true_iff, orb_true_iff in EE. destruct EE as [[[X|X] _] _]; apply Byte.byte_dec_bl in X; subst c;
      [left|right]; auto. }
  assert (GEN : forall X, (let (t, r) := scan_float fm fd true b in (x65 :: t, r)) = X -> X = (t, r) ->
    exists w, c :: b = w ++ r /\ Forall2 same_e w t).
  { intros X HX ->. destruct (scan_float fm fd true b) as [t' r'] eqn:E. injection HX as <- <-.
    eapply STEP; [|exact E|exact SE]. lia. }
  destruct b as [|c2 b2]; [eapply GEN; [reflexivity|exact H]|].
  assert (TWO : forall s, (let (t, r) := scan_float fm fd true b2 in (x65 :: s :: t, r)) = (t, r) -> c2 = s ->
    exists w, c :: c2 :: b2 = w ++ r /\ Forall2 same_e w t).
  { intros s HX ->. destruct (scan_float fm fd true b2) as [t' r'] eqn:E. injection HX as <- <-.
    cbn [List.length] in L. destruct (IH b2 _ _ _ _ _ ltac:(lia) E) as (w & -> & F). exists (c :: s :: w).
    split; [reflexivity|]. constructor; [exact SE|]. constructor; [left; reflexivity|exact F]. }
  destruct c2; try (eapply GEN; [reflexivity|exact H]); (eapply TWO; [exact H|reflexivity]).
Qed.

Lemma same_e_eq : forall w t, Forall2 same_e w t -> ~ In x65 t -> w = t.
Proof.
  intros w t H. induction H as [|a b w t [->|[_ ->]] H IH]; intro N; [reflexivity| |elim N; left; reflexivity].
  f_equal. apply IH. intro I. apply N. right. exact I.
Qed.

Lemma digits_no_e : forall w k n, digits w k n -> ~ In x65 w.
Proof.
  intros w k n H. induction H as [|w k n c d H IH [Hd E]]; [intros []|].
  intro I. apply in_app_or in I. destruct I as [I|[->|[]]]; [auto|]. change (101 = 48 + d) in E. lia.
Qed.

Lemma sign_no_e : forall s m, sign s m -> ~ In x65 s.
Proof. intros s m []; cbn [In]; intro H; repeat (destruct H as [H|H]; [discriminate|]); exact H. Qed.

Lemma parse_exp_is : forall b e, parse_exp b = Some e -> forall w, Forall2 same_e w b -> exponent w e.
Proof.
  intros b e H w F. destruct b as [|c b].
  { injection H as <-. inversion F; subst. left. auto. }
  unfold parse_exp in H. destruct c; try discriminate H.
  destruct (take_sign b) as [neg b2] eqn:ES. destruct (take_digits b2) as [ds b3] eqn:ED.
  destruct ds as [|d ds]; [discriminate|]. destruct b3; [|discriminate]. cbv zeta in H. injection H as <-.
  apply take_sign_is in ES. destruct ES as (s & -> & S). apply take_digits_is in ED. destruct ED as (t & -> & D).
  inversion F as [|a x w' y SE F']; subst. right. rewrite app_nil_r in F'.
  exists a, (s ++ t). rewrite (same_e_eq _ _ F').
  2:{ intro I. apply in_app_or in I. destruct I as [I|I]; [exact (sign_no_e _ _ S I)|exact (digits_no_e _ _ _ D I)]. }
  split; [reflexivity|]. split; [destruct SE as [->|[-> _]]; auto|].
  exists s, neg, t, (zlen (d :: ds)), (digits_val (d :: ds)). repeat split; auto. apply some_digits.
Qed.

Lemma digits_val_app : forall a b, digits_val (a ++ b) = digits_val a * 10 ^ zlen b + digits_val b.
Proof.
  intros a b. induction b as [|d b IH] using rev_ind.
  - rewrite app_nil_r. change (zlen (@nil Z)) with 0. change (digits_val []) with 0. lia.
  - rewrite app_assoc, !digits_val_snoc, IH.
    replace (zlen (b ++ [d])) with (Z.succ (zlen b)) by (unfold zlen; rewrite app_length; cbn [List.length]; lia).
    rewrite Z.pow_succ_r by (unfold zlen; lia). ring.
Qed.

Lemma parse_dec_is : forall t m e, parse_dec t = Some (m, e) -> forall w, Forall2 same_e w t -> forall s minus, sign s minus ->
  0 <= m /\ real (s ++ w) minus (decimal (signed minus m) e).
Proof.
  intros t m e H w F s minus S. unfold parse_dec in H. destruct (take_digits t) as [ip b1] eqn:E1.
  apply take_digits_is in E1. destruct E1 as (ti & -> & D1).
  assert (X : exists fp b2 p tf, b1 = p ++ tf ++ b2 /\ (p = [x2e] \/ p = [] /\ tf = []) /\ digits tf (zlen fp) (digits_val fp) /\
    (match b1 with x2e :: b1' => take_digits b1' | _ => ([], b1) end) = (fp, b2)).
  { assert (G : forall l, l = b1 -> exists fp b2 p tf, b1 = p ++ tf ++ b2 /\ (p = [x2e] \/ p = [] /\ tf = []) /\
      digits tf (zlen fp) (digits_val fp) /\ (@nil Z, l) = (fp, b2)).
    { intros l ->. exists [], b1, [], []. repeat split; auto. constructor. }
    destruct b1 as [|c b1]; [apply G; reflexivity|]. destruct c; try (apply G; reflexivity).
    destruct (take_digits b1) as [fp b2] eqn:E2. pose proof E2 as E3. apply take_digits_is in E2. destruct E2 as (tf & -> & D2).
    exists fp, b2, [x2e], tf. repeat split; auto. }
  destruct X as (fp & b2 & p & tf & -> & PP & D2 & EQ). rewrite EQ in H. clear EQ.
  destruct (parse_exp b2) as [ex|] eqn:EX; [|destruct (ip ++ fp); discriminate].
  assert (NE : 1 <= zlen ip + zlen fp).
  { destruct (ip ++ fp) eqn:Q; [discriminate|]. assert (L : zlen (ip ++ fp) = zlen ip + zlen fp) by (unfold zlen; rewrite app_length; lia).
    rewrite <- L, Q. apply some_digits. }
  assert (HM : m = digits_val (ip ++ fp) /\ e = ex - zlen fp).
  { destruct (ip ++ fp); [discriminate|]. injection H as <- <-. auto. }
  destruct HM as [-> ->]. clear H.
  apply Forall2_app_inv_r in F. destruct F as (w1 & w' & F1 & F & ->).
  apply Forall2_app_inv_r in F. destruct F as (w2 & w'' & F2 & F & ->).
  apply Forall2_app_inv_r in F. destruct F as (w3 & w4 & F3 & F4 & ->).
  apply same_e_eq in F1; [|eapply digits_no_e; exact D1]. apply same_e_eq in F3; [|eapply digits_no_e; exact D2].
  apply same_e_eq in F2; [|destruct PP as [->|[-> _]]; [intros [Q|[]]; discriminate|intros []]]. subst w1 w2 w3.
  rewrite digits_val_app. pose proof (digits_nonneg _ _ _ D1) as [_ N1]. pose proof (digits_nonneg _ _ _ D2) as [Z2 N2].
  split; [assert (0 <= 10 ^ zlen fp) by (apply Z.pow_nonneg; lia); nia|].
  exists s, ti, p, tf, w4, (zlen ip), (digits_val ip), (zlen fp), (digits_val fp), ex.
  repeat split; auto. eapply parse_exp_is; eassumption.
Qed.

(** ** Nothing longer is a real *)

Definition left_by (fm fd fs : bool) (b : bytes) : nat := List.length (snd (scan_float fm fd fs b)).

Lemma left_by_short : forall n b fm fd fs, (List.length b <= n)%nat -> (left_by fm fd fs b <= List.length b)%nat.
Proof.
  intros n b fm fd fs L. unfold left_by. destruct (scan_float fm fd fs b) as [t r] eqn:E. apply (scan_is n) in E; [|exact L].
  destruct E as (w & -> & _). cbn [snd]. rewrite app_length. lia.
Qed.

Lemma left_by_digits : forall t k n, digits t k n -> forall fm fd fs b,
  left_by fm fd fs (t ++ b) = left_by (fm || negb (k =? 0)) fd fs b.
Proof.
  intros t k n H. induction H as [|w k n c d H IH D]; intros fm fd fs b; [cbn [app]; rewrite orb_false_r; reflexivity|].
  rewrite <- app_assoc, IH. cbn [app]. unfold left_by. cbn [scan_float].
  replace (is_digit c) with true by (symmetry; pose proof (digit_is_of _ _ D) as X; unfold is_digit; rewrite X; reflexivity).
  pose proof (digits_nonneg _ _ _ H) as [K _]. replace (k + 1 =? 0) with false by (symmetry; apply Z.eqb_neq; lia).
  cbn [negb]. rewrite orb_true_r. destruct (scan_float true fd fs b). reflexivity.
Qed.

Lemma left_by_exponent : forall w e, exponent w e -> forall fd b, (left_by true fd false (w ++ b) <= List.length b)%nat.
Proof.
  intros w e [[-> ->]|(c & t & -> & Hc & (s & minus & t' & k & n & -> & S & D & K & _))] fd b.
  { apply (left_by_short (List.length b)). lia. }
  assert (G : (left_by true fd true (t' ++ b) <= List.length b)%nat).
  { rewrite (left_by_digits _ _ _ D). apply (left_by_short (List.length b)). lia. }
  rewrite <- app_comm_cons, <- app_assoc. unfold left_by in *. cbn [scan_float].
  replace (is_digit c) with false by (destruct Hc as [-> | ->]; reflexivity).
  replace (Byte.eqb c x2e && negb fd && negb false) with false by (destruct Hc as [-> | ->]; reflexivity).
  replace ((Byte.eqb c x65 || Byte.eqb c x45) && negb false && true) with true by (destruct Hc as [-> | ->]; reflexivity).
  destruct S; cbn [app].
  - destruct (t' ++ b) as [|x l] eqn:E; [destruct (scan_float true fd true []); exact G|].
    destruct (digits_head _ _ _ D _ _ _ (digits_some _ _ _ D K) E) as (d & HD). apply digit_no_sign in HD. destruct HD as [N1 N2].
    destruct x; try (elim N1; reflexivity); try (elim N2; reflexivity); (destruct (scan_float true fd true (_ :: l)); exact G).
  - destruct (scan_float true fd true (t' ++ b)). exact G.
  - destruct (scan_float true fd true (t' ++ b)). exact G.
Qed.

Lemma real_longest : forall b neg b1 t r w, take_sign b = (neg, b1) -> scan_float false false false b1 = (t, r) -> b = w ++ r -> longest is_real w r.
Proof.
  intros b neg b1 t r w ES EF EB w' r' E (m & q & s & ip & p & fp & ex & ki & ni & kf & nf & e & -> & S & D1 & D2 & K & PP & EX & _).
  assert (LE : (List.length r <= List.length r')%nat).
  { rewrite <- EB, <- app_assoc in E. rewrite <- E in ES. rewrite (sign_take _ _ _ _ S) in ES.
    - injection ES as _ <-. replace (List.length r) with (left_by false false false ((ip ++ p ++ fp ++ ex) ++ r')) by (unfold left_by; rewrite EF; reflexivity).
      rewrite <- app_assoc, (left_by_digits _ _ _ D1). cbn [orb]. destruct PP as [-> |[-> ->]].
      + cbn [app]. unfold left_by at 1. cbn [scan_float]. change (is_digit x2e) with false. change (Byte.eqb x2e x2e && negb false && negb false) with true. cbv iota.
        transitivity (left_by (negb (ki =? 0)) true false ((fp ++ ex) ++ r')).
        { unfold left_by. destruct (scan_float (negb (ki =? 0)) true false ((fp ++ ex) ++ r')). apply le_n. }
        rewrite <- app_assoc, (left_by_digits _ _ _ D2).
        replace (negb (ki =? 0) || negb (kf =? 0)) with true; [eapply left_by_exponent; exact EX|].
        symmetry. destruct (ki =? 0) eqn:K1; [|reflexivity]. destruct (kf =? 0) eqn:K2; [|reflexivity]. apply Z.eqb_eq in K1, K2. lia.
      + cbn [app]. pose proof (digits_nonneg _ _ _ D1) as [N1 _]. assert (kf = 0) by (inversion D2; [reflexivity|destruct w0; discriminate]).
        replace (ki =? 0) with false by (symmetry; apply Z.eqb_neq; lia). eapply left_by_exponent. exact EX.
    - intros c l X. destruct ip as [|x ip].
      + destruct PP as [-> |[-> ->]]; [injection X as <- _; split; discriminate|]. exfalso.
        assert (ki = 0) by (inversion D1; [reflexivity|destruct w0; discriminate]). assert (kf = 0) by (inversion D2; [reflexivity|destruct w0; discriminate]). lia.
      + rewrite <- app_assoc in X. destruct (digits_head _ _ _ D1 _ _ _ ltac:(discriminate) X) as (d & HD). eapply digit_no_sign. exact HD. }
  apply (f_equal (@List.length _)) in E. rewrite !app_length in *. lia.
Qed.

Lemma extract_double_is : forall b v r, extract_double b = (v, false, r) -> exists w, b = w ++ r /\ real_written v w r.
Proof.
  intros b v r H. unfold extract_double in H.
  destruct (take_sign b) as [neg b1] eqn:ES. destruct (scan_float false false false b1) as [t b2] eqn:EF.
  pose proof (fun w => real_longest b neg b1 t b2 w ES EF) as LG.
  apply take_sign_is in ES. destruct ES as (s & -> & S).
  apply (scan_is (List.length b1)) in EF; [|lia]. destruct EF as (w & -> & F).
  destruct (parse_dec t) as [[m e]|] eqn:EP; [|discriminate]. cbv zeta in H.
  destruct (inf_mag <=? round_dec m e) eqn:C; [discriminate|]. apply Z.leb_gt in C. injection H as <- <-.
  destruct (parse_dec_is _ _ _ EP w F s neg S) as [Hm HR].
  exists (s ++ w). rewrite app_assoc. split; [reflexivity|].
  split; [|apply LG; rewrite app_assoc; reflexivity].
  exists neg, (decimal (signed neg m) e). split; [exact HR|].
  destruct (decimal_den neg m e Hm) as (N & d & HN & ER & EQ). rewrite ER in *. split.
  - apply (closest_double_Qeq (sgn neg N # den d)); [symmetry; exact EQ|]. apply closest_double_den; assumption.
  - change (dneg (mk_dbl neg (round_u N (Z.pos d))) = neg). apply dneg_mk.
    split; [apply round_u_nonneg; [exact HN|reflexivity]|exact C].
Qed.

(** ** Names *)

Lemma unquote_is : forall n b t r, (List.length b <= n)%nat -> unquote b = (t, Some r) ->
  exists e, b = e ++ x22 :: r /\ unescapes e t.
Proof.
  induction n as [|n IH]; intros b t r L H.
  { destruct b; [discriminate|cbn in L; lia]. }
  destruct b as [|c b]; [discriminate|]. cbn [List.length] in L.
  assert (GEN : c <> x22 -> c <> x5c -> (let (t, r) := unquote b in (c :: t, r)) = (t, Some r) ->
    exists e, c :: b = e ++ x22 :: r /\ unescapes e t).
  { intros N1 N2 HX. destruct (unquote b) as [t' [r'|]] eqn:E; [|discriminate]. injection HX as <- <-.
    destruct (IH b t' r' ltac:(lia) E) as (e & -> & U). exists (c :: e). split; [reflexivity|constructor; assumption]. }
  destruct c; try (apply GEN; [discriminate|discriminate|exact H]); clear GEN.
  - injection H as <- <-. exists []. split; [reflexivity|constructor].
  - destruct b as [|c b]; [discriminate|]. cbn [unquote] in H. destruct (unquote b) as [t' [r'|]] eqn:E; [|discriminate].
    injection H as <- <-. cbn [List.length] in L. destruct (IH b t' r' ltac:(lia) E) as (e & -> & U).
    exists (x5c :: c :: e). split; [reflexivity|constructor; exact U].
Qed.
