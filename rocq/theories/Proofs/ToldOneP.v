(** A text says one thing. *)

From Verif Require Import Model.Bytes Spec.Told Proofs.BytesP Proofs.DblP Proofs.RtBase Proofs.RoundP Proofs.ToldNumP.

Ltac Zify.zify_post_hook ::= idtac.

Lemma digits_unique : forall w k n, digits w k n -> forall k' n', digits w k' n' -> k = k' /\ n = n'.
Proof.
  intros w k n H. induction H as [|w k n c d H IH D]; intros k' n' H'.
  - inversion H' as [|w' ? ? ? ? ? ? E]; [auto|destruct w'; discriminate].
  - inversion H' as [E|w' k2 n2 c' d' H2 D2 E]; [destruct w; discriminate|]. apply app_inj_tail in E. destruct E as [-> ->].
    destruct (IH _ _ H2) as [-> ->]. apply digit_is_of in D, D2. split; [reflexivity|]. congruence.
Qed.

Definition stops (x : bytes) : Prop := forall c l, x = c :: l -> digit_of c = None.
Definition all_digits (w : bytes) : Prop := Forall (fun c => digit_of c <> None) w.
Lemma digits_all : forall w k n, digits w k n -> all_digits w.
Proof.
  intros w k n H. induction H as [|w k n c d H IH D]; [constructor|]. apply Forall_app. split; [exact IH|].
  constructor; [|constructor]. rewrite (digit_is_of _ _ D). discriminate.
Qed.
Lemma digits_split : forall a b x y, all_digits a -> all_digits b -> stops x -> stops y -> a ++ x = b ++ y -> a = b /\ x = y.
Proof.
  intros a b x y HA. revert b. induction HA as [|c a C A IH]; intros b HB SX SY E.
  - destruct b as [|c b]; [auto|]. cbn [app] in E. apply SX in E. inversion HB. congruence.
  - destruct b as [|c' b].
    + cbn [app] in E. symmetry in E. apply SY in E. congruence.
    + injection E as <- E. inversion HB; subst. destruct (IH b) as [-> ->]; auto.
Qed.

Definition no_sign (x : bytes) : Prop := forall c l, x = c :: l -> c <> x2b /\ c <> x2d.
Lemma sign_split : forall s m x s' m' x', sign s m -> sign s' m' -> no_sign x -> no_sign x' -> s ++ x = s' ++ x' -> m = m' /\ x = x'.
Proof.
  intros s m x s' m' x' H H' N N' E. destruct H, H'; cbn [app] in E; try (injection E as ->; auto); try discriminate; auto.
  all: try (apply N in E; destruct E; congruence); symmetry in E; apply N' in E; destruct E; congruence.
Qed.

Lemma digits_no_sign : forall t k n, digits t k n -> 1 <= k -> no_sign t.
Proof.
  intros t k n D K c l E. rewrite <- (app_nil_r t) in E. destruct (digits_head _ _ _ D _ _ _ (digits_some _ _ _ D K) E) as (d & HD).
  eapply digit_no_sign. exact HD.
Qed.

Lemma integer_unique : forall w z z', integer w z -> integer w z' -> z = z'.
Proof.
  intros w z z' (s & m & t & k & n & -> & S & D & K & ->) (s' & m' & t' & k' & n' & E & S' & D' & K' & ->).
  destruct (sign_split _ _ _ _ _ _ S S' (digits_no_sign _ _ _ D K) (digits_no_sign _ _ _ D' K') E) as [-> ->].
  destruct (digits_unique _ _ _ D _ _ D') as [_ ->]. reflexivity.
Qed.

Lemma exponent_unique : forall w e e', exponent w e -> exponent w e' -> e = e'.
Proof.
  intros w e e' [[-> ->]|(c & t & -> & _ & I)] [[E ->]|(c' & t' & E & _ & I')]; try discriminate; [reflexivity|].
  injection E as <- <-. eapply integer_unique; eassumption.
Qed.
Lemma exponent_stops : forall w e, exponent w e -> stops w.
Proof. intros w e [[-> _]|(c & t & -> & H & _)] x l E; [discriminate|]. injection E as <- _. destruct H as [-> | ->]; reflexivity. Qed.

Lemma digits_empty : forall k n, digits [] k n -> k = 0.
Proof. intros k n H. inversion H as [|w]; [reflexivity|]. destruct w; discriminate. Qed.

Lemma real_unique : forall w m q m' q', real w m q -> real w m' q' -> m = m' /\ q = q'.
Proof.
  intros w m q m' q' (s & ip & p & fp & ex & ki & ni & kf & nf & e & -> & S & D1 & D2 & K & PP & EX & ->)
    (s' & ip' & p' & fp' & ex' & ki' & ni' & kf' & nf' & e' & E & S' & D1' & D2' & K' & PP' & EX' & ->).
  assert (NS : forall ip ki ni p fp kf nf ex, digits ip ki ni -> digits fp kf nf -> 1 <= ki + kf -> (p = [x2e] \/ p = [] /\ fp = []) ->
    no_sign (ip ++ p ++ fp ++ ex)).
  { clear. intros ip ki ni p fp kf nf ex D1 D2 K PP c l X. destruct ip as [|x ip].
    - apply digits_empty in D1. destruct PP as [-> |[-> ->]]; [injection X as <- _; split; discriminate|]. apply digits_empty in D2. lia.
    - destruct (digits_head _ _ _ D1 _ _ _ ltac:(discriminate) X) as (d & HD). eapply digit_no_sign. exact HD. }
  destruct (sign_split _ _ _ _ _ _ S S' (NS _ _ _ _ _ _ _ ex D1 D2 K PP) (NS _ _ _ _ _ _ _ ex' D1' D2' K' PP') E) as [-> E1]. clear E NS.
  assert (ST : forall p fp ex e, exponent ex e -> (p = [x2e] \/ p = [] /\ fp = []) -> stops (p ++ fp ++ ex)).
  { clear. intros p fp ex e EX [-> |[-> ->]] c l X; [injection X as <- _; reflexivity|]. eapply exponent_stops; eassumption. }
  destruct (digits_split _ _ _ _ (digits_all _ _ _ D1) (digits_all _ _ _ D1') (ST _ _ _ _ EX PP) (ST _ _ _ _ EX' PP') E1) as [-> E2]. clear E1 ST.
  destruct (digits_unique _ _ _ D1 _ _ D1') as [-> ->].
  assert (NP : forall ex e l, exponent ex e -> ex <> x2e :: l).
  { clear. intros ex e l [[-> _]|(c & t & -> & H & _)] X; [discriminate|]. injection X as -> _. destruct H; discriminate. }
  assert (X : fp = fp' /\ ex = ex').
  { destruct PP as [-> |[-> ->]], PP' as [-> |[-> ->]]; cbn [app] in E2.
    - injection E2 as E2. exact (digits_split _ _ _ _ (digits_all _ _ _ D2) (digits_all _ _ _ D2') (exponent_stops _ _ EX) (exponent_stops _ _ EX') E2).
    - elim (NP _ _ _ EX' (eq_sym E2)).
    - elim (NP _ _ _ EX E2).
    - auto. }
  destruct X as [-> ->]. destruct (digits_unique _ _ _ D2 _ _ D2') as [-> ->]. rewrite (exponent_unique _ _ _ EX EX'). auto.
Qed.

(** ** Words *)

Lemma longest_same : forall (P : bytes -> Prop) w r w' r', longest P w r -> longest P w' r' -> P w -> P w' -> w ++ r = w' ++ r' -> w = w' /\ r = r'.
Proof.
  intros P w r w' r' L L' H H' E. pose proof (L w' r' (eq_sym E) H') as A. pose proof (L' w r E H) as B.
  assert (X : List.length w = List.length w') by lia. clear -E X. revert w' X E.
  induction w as [|c w IH]; intros [|c' w'] X E; try discriminate; [auto|]. injection E as <- E. destruct (IH w') as [-> ->]; auto.
Qed.

Lemma blank_split : forall u u' w w' r r', blank u -> blank u' -> (exists c t, w = c :: t /\ is_ws c = false) -> (exists c t, w' = c :: t /\ is_ws c = false) ->
  u ++ w ++ r = u' ++ w' ++ r' -> w ++ r = w' ++ r'.
Proof.
  intros u u' w w' r r' B. revert u'. induction B as [|x u X B IH]; intros u' B' (c & t & -> & C) (c' & t' & -> & C') E.
  - destruct B' as [|x' u' X' B']; [exact E|]. injection E as <- _. congruence.
  - destruct B' as [|x' u' X' B']; [injection E as <- _; congruence|]. injection E as <- E. eapply IH; eauto.
Qed.

Lemma real_first : forall w m q, real w m q -> exists c t, w = c :: t /\ is_ws c = false.
Proof.
  intros w m q (s & ip & p & fp & ex & ki & ni & kf & nf & e & -> & S & D1 & D2 & K & PP & EX & _).
  destruct S; [|do 2 eexists; split; reflexivity..]. cbn [app]. destruct ip as [|x ip].
  - apply digits_empty in D1. destruct PP as [-> |[-> ->]]; [do 2 eexists; split; reflexivity|]. apply digits_empty in D2. lia.
  - do 2 eexists. split; [reflexivity|]. apply digits_all in D1. inversion D1 as [|? ? X]; subst. destruct x; try reflexivity; elim X; reflexivity.
Qed.
Lemma integer_first : forall w z, integer w z -> exists c t, w = c :: t /\ is_ws c = false.
Proof.
  intros w z (s & m & t & k & n & -> & S & D & K & _). destruct S; [|do 2 eexists; split; reflexivity..]. cbn [app].
  destruct t as [|x t]; [apply digits_empty in D; lia|]. do 2 eexists. split; [reflexivity|].
  apply digits_all in D. inversion D as [|? ? X]; subst. destruct x; try reflexivity; elim X; reflexivity.
Qed.

Lemma written_first : forall f w r, written f w r -> exists c t, w = c :: t /\ is_ws c = false.
Proof.
  intros [z|z|x] w r; cbn [written].
  - intros [[I _] _]. eapply integer_first. exact I.
  - intros [(n & I & _) _]. eapply integer_first. exact I.
  - intros [(m & q & I & _) _]. eapply real_first. exact I.
Qed.

Lemma written_one : forall f f' w r w' r', sort_of f = sort_of f' -> written f w r -> written f' w' r' -> w ++ r = w' ++ r' ->
  f = f' /\ r = r'.
Proof.
  intros f f' w r w' r' SO H H' E. destruct f as [z|z|x], f' as [z'|z'|x']; try discriminate; cbn [written] in *.
  - destruct H as [[I _] L], H' as [[I' _] L']. destruct (longest_same _ _ _ _ _ L L' (ex_intro _ _ I) (ex_intro _ _ I') E) as [-> ->].
    rewrite (integer_unique _ _ _ I I'). auto.
  - destruct H as [(n & I & _ & ->) L], H' as [(n' & I' & _ & ->) L']. destruct (longest_same _ _ _ _ _ L L' (ex_intro _ _ I) (ex_intro _ _ I') E) as [-> ->].
    rewrite (integer_unique _ _ _ I I'). auto.
  - destruct H as [(m & q & I & C & N) L], H' as [(m' & q' & I' & C' & N') L'].
    destruct (longest_same _ _ _ _ _ L L' (ex_intro _ m (ex_intro _ _ I)) (ex_intro _ m' (ex_intro _ _ I')) E) as [-> ->].
    destruct (real_unique _ _ _ _ _ I I') as [-> ->]. split; [|reflexivity]. f_equal. eapply closest_double_unique; [exact C|exact C'|].
    unfold dneg. change two63 with (2 ^ 63). congruence.
Qed.

Lemma words_one : forall l l' t r t' r', map sort_of l = map sort_of l' -> in_words (map written l) t r -> in_words (map written l') t' r' ->
  t ++ r = t' ++ r' -> l = l' /\ r = r'.
Proof.
  induction l as [|f l IH]; intros [|f' l'] t r t' r' SO H H' E; try discriminate; cbn [map] in *.
  - inversion H; inversion H'; subst. auto.
  - inversion H as [|k ks u w t1 r1 B K T]; subst. inversion H' as [|k' ks' u' w' t1' r1' B' K' T']; subst. injection SO as S1 S2.
    rewrite <- !app_assoc in E. apply blank_split in E; [|assumption|assumption|eapply written_first; eassumption|eapply written_first; eassumption].
    destruct (written_one _ _ _ _ _ _ S1 K K' E) as [-> E']. destruct (IH _ _ _ _ _ S2 T T' E') as [-> ->]. auto.
Qed.

(** At least a byte for each number. *)
Lemma words_length : forall l t r, in_words (map written l) t r -> (List.length l <= List.length t)%nat.
Proof.
  induction l as [|f l IH]; intros t r H; cbn [map] in H; [apply Nat.le_0_l|]. inversion H as [|k ks u w t1 r1 B K T]; subst.
  apply written_first in K. destruct K as (c & w' & -> & _). apply IH in T. rewrite !app_length. cbn [List.length]. lia.
Qed.
Lemma numbers_length : forall ascii l t r, numbers ascii l t r -> (List.length l <= List.length t)%nat.
Proof.
  intros [|] l t r H; [eapply words_length; exact H|]. destruct H as (u & _ & ->). rewrite app_length.
  assert (List.length l <= List.length (flat_map raw_of l))%nat; [|lia].
  induction l as [|f l IH]; [auto|]. cbn [flat_map List.length]. rewrite app_length. destruct f; cbn [raw_of]; rewrite le_length; lia.
Qed.
