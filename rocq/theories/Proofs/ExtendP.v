(** A reader that leaves the stream good has not looked at its end: with more
    input behind, it does the same.  Conversely, a reader that leaves more than
    what was added behind does the same without it. *)

From Verif Require Import Model.LoadMsh Spec.Steps Proofs.BytesP Proofs.RtBase Proofs.Mono Proofs.Fuel.

Ltac Zify.zify_post_hook ::= idtac.

Definition more (q : bytes) (s : istream) : istream := {| rest := rest s ++ q; eofb := eofb s; failb := failb s |}.

Lemma good_more : forall q s, good (more q s) = good s.
Proof. reflexivity. Qed.

Definition forth {A} (m : M A) : Prop :=
  forall s a s' q, m s = Ok (a, s') -> good s' = true -> m (more q s) = Ok (a, more q s').
Definition back {A} (m : M A) : Prop :=
  forall s a t q, m (more q s) = Ok (a, t) -> good t = true -> (List.length q < List.length (rest t))%nat ->
    exists s', m s = Ok (a, s') /\ t = more q s'.
Definition ext {A} (m : M A) : Prop := mono m /\ forth m /\ back m.

Lemma ext_bind : forall A B (m : M A) (k : A -> M B), ext m -> (forall a, ext (k a)) -> ext (bind m k).
Proof.
  intros A B m k (M1 & H1 & B1) H2. split; [apply mono_bind; [exact M1|intro a; apply H2]|].
  split; intros s b s' q E G; unfold bind in *.
  - destruct (m s) as [[a s1]|e|u| |] eqn:E1; try discriminate.
    assert (G1 : good s1 = true).
    { destruct (good s1) eqn:X; [reflexivity|]. rewrite (adv_good _ _ (proj1 (H2 a) _ _ _ E) X) in G. discriminate. }
    rewrite (H1 _ _ _ q E1 G1). apply H2; assumption.
  - intro L. destruct (m (more q s)) as [[a t1]|e|u| |] eqn:E1; try discriminate.
    pose proof (proj1 (H2 a) _ _ _ E) as AD.
    assert (G1 : good t1 = true).
    { destruct (good t1) eqn:X; [reflexivity|]. rewrite (adv_good _ _ AD X) in G. discriminate. }
    destruct (B1 _ _ _ _ E1 G1) as (s1 & E2 & ->); [destruct AD; lia|]. rewrite E2. apply H2; assumption.
Qed.
Lemma ext_still : forall A (m : M A), mono m -> (forall s a s', m s = Ok (a, s') -> s' = s) ->
  (forall s q a, m s = Ok (a, s) <-> m (more q s) = Ok (a, more q s)) -> ext m.
Proof.
  intros A m M0 H0 H. split; [exact M0|]. split; intros s a s' q E G.
  - pose proof (H0 _ _ _ E) as ->. apply H. exact E.
  - intros _. pose proof (H0 _ _ _ E) as ->. exists s. split; [|reflexivity]. apply (H s q). exact E.
Qed.
Lemma ext_ret : forall A (a : A), ext (ret a).
Proof.
  intros. apply ext_still; [apply mono_ret|intros s b s' E; injection E as _ <-; reflexivity|].
  intros s q b. split; intro E; injection E as <-; reflexivity.
Qed.
Lemma ext_throw : forall A e, ext (@throw A e).
Proof. intros. split; [apply mono_throw|]. split; intros s b s' q E G; discriminate. Qed.
Lemma ext_undef : forall A e, ext (@undef A e).
Proof. intros. split; [apply mono_undef|]. split; intros s b s' q E G; discriminate. Qed.
Lemma ext_lift : forall A (o : outcome A), ext (lift o).
Proof.
  intros. apply ext_still; [apply mono_lift|intros s b s' E; unfold lift in E; destruct o; try discriminate; injection E as _ <-; reflexivity|].
  intros s q b. unfold lift. destruct o; split; intro E; try discriminate; injection E as <-; reflexivity.
Qed.
Lemma ext_use : forall A (o : option A), ext (use o).
Proof. intros A [a|]; cbn [use]; [apply ext_ret|apply ext_undef]. Qed.
Lemma ext_massert : forall c b, ext (massert c b).
Proof.
  intros. unfold massert. destruct (ndebug c); [apply ext_ret|]. destruct b; [apply ext_ret|].
  split; [intros s a s' E; discriminate|]. split; intros s a s' q E G; discriminate.
Qed.
Lemma ext_assert_good : forall c, ext (assert_good c).
Proof.
  intro c. split; [apply mono_assert_good|]. split; intros s a s' q E G; unfold assert_good in *; rewrite good_more in *.
  - eapply (proj1 (proj2 (ext_massert c (good s)))); eassumption.
  - intro L. eapply (proj2 (proj2 (ext_massert c (good s)))); eassumption.
Qed.
Lemma ext_mapM : forall A B (f : A -> M B) l, (forall x, ext (f x)) -> ext (mapM f l).
Proof.
  intros A B f l H. induction l as [|x l IH]; [apply ext_ret|]. cbn [mapM]. apply ext_bind; [apply H|intro].
  apply ext_bind; [exact IH|intro; apply ext_ret].
Qed.
Lemma ext_iterM : forall S n (f : S -> M S), (forall s, ext (f s)) -> forall s, ext (iterM n f s).
Proof. intros S n f H. induction n as [|n IH]; intro s; [apply ext_ret|]. cbn [iterM]. apply ext_bind; [apply H|exact IH]. Qed.
Lemma ext_fill : forall A cnt (f : A -> M A) v, (forall x, ext (f x)) -> ext (fill cnt f v).
Proof. intros. unfold fill. destruct (cnt =? zlen v); [apply ext_mapM; assumption|apply ext_undef]. Qed.

(** A read that hits the end of [s] eats into what was added. *)
Definition grabs {A} (f : istream -> A * istream) : Prop :=
  forall s q, good (snd (f s)) = false -> good (snd (f (more q s))) = true ->
    (List.length (rest (snd (f (more q s)))) <= List.length q)%nat.
Lemma ext_op : forall A (f : istream -> A * istream), mono (op f) ->
  (forall s q, good (snd (f s)) = true -> f (more q s) = (fst (f s), more q (snd (f s)))) -> grabs f -> ext (op f).
Proof.
  intros A f M0 H HG. split; [exact M0|]. split; intros s a s' q E G; unfold op in *; injection E as E.
  - pose proof (H s q) as P. rewrite E in P. rewrite (P G). reflexivity.
  - intro L. pose proof (HG s q) as P. pose proof (H s q) as P'. rewrite E in *. cbn [snd] in P.
    destruct (f s) as [a1 s1] eqn:E1. cbn [fst snd] in *. destruct (good s1) eqn:G1.
    + specialize (P' eq_refl). injection P' as -> ->. exists s1. split; reflexivity.
    + specialize (P eq_refl G). lia.
Qed.

(** ** Formatted reads *)
Lemma skip_ws_more : forall b q, skip_ws b <> [] -> skip_ws (b ++ q) = skip_ws b ++ q.
Proof. induction b as [|x b IH]; intros q H; [elim H; reflexivity|]. cbn [skip_ws app] in *. destruct (is_ws x); [apply IH; exact H|reflexivity]. Qed.

Lemma sentry_more : forall s q, fst (sentry s) = true -> sentry (more q s) = (true, more q (snd (sentry s))) /\ rest (snd (sentry s)) <> [] /\
  eofb (snd (sentry s)) = false /\ failb (snd (sentry s)) = false.
Proof.
  intros s q H. unfold sentry in *. rewrite good_more. destruct (good s) eqn:G; [|discriminate].
  apply good_flags in G. destruct G as [G1 G2].
  destruct (skip_ws (rest s)) as [|x l] eqn:E; [discriminate|]. cbn [fst snd].
  unfold more at 1. cbn [rest]. rewrite skip_ws_more by (rewrite E; discriminate). rewrite E. cbn [app].
  split; [reflexivity|]. cbn [with_rest rest eofb failb]. repeat split; [discriminate|exact G1|exact G2].
Qed.

Lemma sentry_bad : forall s, fst (sentry s) = false -> good (snd (sentry s)) = false.
Proof.
  intros s H. unfold sentry in *. destruct (good s) eqn:G.
  - destruct (skip_ws (rest s)); [reflexivity|discriminate].
  - cbn [snd]. unfold good, set_fail. cbn [eofb failb]. apply andb_false_r.
Qed.

Lemma take_token_more : forall b q t r, take_token b = (t, r) -> r <> [] -> take_token (b ++ q) = (t, r ++ q).
Proof.
  induction b as [|x b IH]; intros q t r H N; cbn [take_token app] in *; [injection H as <- <-; congruence|].
  destruct (is_ws x); [injection H as <- <-; reflexivity|]. destruct (take_token b) as [t' r'] eqn:E.
  injection H as <- <-. rewrite (IH q t' r' eq_refl N). reflexivity.
Qed.

Lemma at_end_more : forall r q s, r <> [] -> at_end (r ++ q) (more q s) = more q (at_end r s).
Proof. intros [|x r] q s H; [congruence|]. reflexivity. Qed.
Lemma at_end_good : forall r s, good (at_end r s) = true -> r <> [].
Proof. intros [|x r] s H; [discriminate|discriminate]. Qed.

Lemma token_more : forall o s q, good (snd (rd_token o s)) = true -> rd_token o (more q s) = (fst (rd_token o s), more q (snd (rd_token o s))).
Proof.
  intros o s q G. unfold rd_token in *. destruct (sentry s) as [ok s1] eqn:ES.
  pose proof (sentry_more s q) as HM. pose proof (sentry_bad s) as HB. rewrite ES in *. cbn [fst snd] in *.
  destruct ok; cbn [snd] in G; [|rewrite HB in G by reflexivity; discriminate]. destruct HM as (-> & N & _ & _); [reflexivity|].
  destruct (take_token (rest s1)) as [t r] eqn:ET. cbn [snd] in G. apply at_end_good in G.
  unfold more at 1. cbn [rest]. rewrite (take_token_more _ q _ _ ET G). cbn [fst snd].
  fold (more q s1). rewrite at_end_more by exact G. reflexivity.
Qed.
Lemma skip_ws_none : forall b q, skip_ws b = [] -> skip_ws (b ++ q) = skip_ws q.
Proof. induction b as [|x b IH]; intros q H; [reflexivity|]. cbn [skip_ws app] in *. destruct (is_ws x); [apply IH; exact H|discriminate]. Qed.
(** Where a failed sentry leaves the longer stream. *)
Lemma sentry_none : forall s q, fst (sentry s) = false -> fst (sentry (more q s)) = true ->
  (List.length (rest (snd (sentry (more q s)))) <= List.length q)%nat.
Proof.
  intros s q H H'. unfold sentry in *. rewrite good_more in *. destruct (good s) eqn:G; [|discriminate].
  destruct (skip_ws (rest s)) as [|x l] eqn:E; [|discriminate]. cbn [more rest] in *. rewrite skip_ws_none in * by exact E.
  pose proof (skip_ws_length q). destruct (skip_ws q) as [|y l']; [discriminate|]. exact H0.
Qed.
Lemma token_le : forall b, (List.length (snd (take_token b)) <= List.length b)%nat.
Proof. intro b. destruct (take_token b) as [t r] eqn:E. cbn [snd]. apply take_token_length in E. lia. Qed.
Lemma take_token_over : forall b q t, take_token b = (t, []) -> (List.length (snd (take_token (b ++ q))) <= List.length q)%nat.
Proof.
  induction b as [|x b IH]; intros q t H; cbn [take_token app] in *.
  - apply token_le.
  - destruct (is_ws x); [discriminate|]. destruct (take_token b) as [t' r'] eqn:E. injection H as _ ->.
    specialize (IH q t' eq_refl). destruct (take_token (b ++ q)). exact IH.
Qed.
Lemma at_end_left : forall r s, rest (at_end r s) = r.
Proof. intros [|x r] s; reflexivity. Qed.
Lemma at_end_bad : forall r s, eofb s = false -> failb s = false -> good (at_end r s) = false -> r = [].
Proof. intros [|x r] s E F G; [reflexivity|]. unfold at_end, good, with_rest in G. cbn in G. rewrite E, F in G. discriminate. Qed.
Lemma token_grabs : forall o, grabs (rd_token o).
Proof.
  intros o s q B G. unfold rd_token in *. destruct (sentry s) as [ok s1] eqn:ES. destruct (sentry (more q s)) as [ok' t1] eqn:ET.
  pose proof (sentry_more s q) as HM. pose proof (sentry_none s q) as HN. pose proof (sentry_bad (more q s)) as HB. rewrite ES, ET in *. cbn [fst snd] in *.
  destruct ok'; cbn [snd] in *; [|rewrite HB in G by reflexivity; discriminate].
  destruct ok.
  - destruct HM as (X & N & F1 & F2); [reflexivity|]. injection X as ->.
    destruct (take_token (rest s1)) as [t r] eqn:E. cbn [snd] in B. apply at_end_bad in B; try assumption. subst r.
    pose proof (take_token_over _ q _ E) as P. cbn [more rest]. destruct (take_token (rest s1 ++ q)). cbn [snd] in *. rewrite at_end_left. exact P.
  - specialize (HN eq_refl eq_refl). pose proof (token_le (rest t1)) as P. destruct (take_token (rest t1)). cbn [snd] in *. rewrite at_end_left. lia.
Qed.
Lemma ext_token : forall o, ext (op (rd_token o)).
Proof. intro o. apply ext_op; [apply mono_op_token|apply token_more|apply token_grabs]. Qed.

(** An extractor that stops before the end of the input. *)
Definition stops {A} (e : bytes -> A * bool * bytes) : Prop :=
  forall b q v fl r, e b = (v, fl, r) -> r <> [] -> e (b ++ q) = (v, fl, r ++ q).

(** One that does not stop there reads on. *)
Definition overs {A} (e : bytes -> A * bool * bytes) : Prop :=
  (forall b, List.length (snd (e b)) <= List.length b)%nat /\
  forall b q v fl, e b = (v, fl, []) -> (List.length (snd (e (b ++ q))) <= List.length q)%nat.

Lemma num_more : forall A (e : bytes -> A * bool * bytes) o s q, stops e -> good (snd (rd_num e o s)) = true ->
  rd_num e o (more q s) = (fst (rd_num e o s), more q (snd (rd_num e o s))).
Proof.
  intros A e o s q S G. unfold rd_num in *. destruct (sentry s) as [ok s1] eqn:ES.
  pose proof (sentry_more s q) as HM. pose proof (sentry_bad s) as HB. rewrite ES in *. cbn [fst snd] in *.
  destruct ok; cbn [snd] in G; [|rewrite HB in G by reflexivity; discriminate]. destruct HM as (-> & N & _ & _); [reflexivity|].
  destruct (e (rest s1)) as [[v fl] r] eqn:ET. cbn [snd] in G.
  assert (NR : r <> []).
  { destruct fl; [|eapply at_end_good; exact G]. unfold good, set_fail in G. cbn [failb] in G. rewrite andb_false_r in G. discriminate. }
  unfold more at 1. cbn [rest]. rewrite (S _ q _ _ _ ET NR). cbn [fst snd].
  fold (more q s1). rewrite at_end_more by exact NR. destruct fl; reflexivity.
Qed.
Lemma num_opt_more : forall A (e : bytes -> A * bool * bytes) o s q, stops e -> good (snd (rd_num_opt e o s)) = true ->
  rd_num_opt e o (more q s) = (fst (rd_num_opt e o s), more q (snd (rd_num_opt e o s))).
Proof.
  intros A e o s q S G. unfold rd_num_opt in *. destruct (sentry s) as [ok s1] eqn:ES.
  pose proof (sentry_more s q) as HM. pose proof (sentry_bad s) as HB. rewrite ES in *. cbn [fst snd] in *.
  destruct ok; cbn [snd] in G; [|rewrite HB in G by reflexivity; discriminate]. destruct HM as (-> & N & _ & _); [reflexivity|].
  destruct (e (rest s1)) as [[v fl] r] eqn:ET. cbn [snd] in G.
  assert (NR : r <> []).
  { destruct fl; [|eapply at_end_good; exact G]. unfold good, set_fail in G. cbn [failb] in G. rewrite andb_false_r in G. discriminate. }
  unfold more at 1. cbn [rest]. rewrite (S _ q _ _ _ ET NR). cbn [fst snd].
  fold (more q s1). rewrite at_end_more by exact NR. destruct fl; reflexivity.
Qed.

Lemma num_grabs : forall A (e : bytes -> A * bool * bytes) o, stops e -> overs e -> grabs (rd_num e o).
Proof.
  intros A e o S [V1 V2] s q B G. unfold rd_num in *. destruct (sentry s) as [ok s1] eqn:ES. destruct (sentry (more q s)) as [ok' t1] eqn:ET.
  pose proof (sentry_more s q) as HM. pose proof (sentry_none s q) as HN. pose proof (sentry_bad (more q s)) as HB. rewrite ES, ET in *. cbn [fst snd] in *.
  destruct ok'; cbn [snd] in *; [|rewrite HB in G by reflexivity; discriminate].
  assert (R : forall r s2 (fl : bool), rest (if fl then set_fail (at_end r s2) else at_end r s2) = r).
  { intros r s2 fl. destruct fl; apply at_end_left. }
  destruct ok.
  - destruct HM as (X & N & F1 & F2); [reflexivity|]. injection X as ->. cbn [more rest] in *.
    destruct (e (rest s1)) as [[v fl] r] eqn:E. cbn [snd] in B. destruct r as [|x r].
    + pose proof (V2 _ q _ _ E) as P. destruct (e (rest s1 ++ q)) as [[v' fl'] r']. cbn [snd] in *. rewrite R. exact P.
    + rewrite (S _ q _ _ _ E) in G by discriminate. destruct fl; cbn [snd] in *.
      * unfold good, set_fail in G. cbn [failb] in G. rewrite andb_false_r in G. discriminate.
      * apply at_end_bad in B; try assumption. discriminate.
  - specialize (HN eq_refl eq_refl). pose proof (V1 (rest t1)) as P. destruct (e (rest t1)) as [[v' fl'] r']. cbn [snd] in *. rewrite R. lia.
Qed.
Lemma num_opt_snd : forall A (e : bytes -> A * bool * bytes) o o' s, snd (rd_num_opt e o s) = snd (rd_num e o' s).
Proof. intros. unfold rd_num_opt, rd_num. destruct (sentry s) as [[|] s1]; [|reflexivity]. destruct (e (rest s1)) as [[v fl] r]. reflexivity. Qed.
Lemma num_opt_grabs : forall A (e : bytes -> A * bool * bytes) (d : A) o, stops e -> overs e -> grabs (rd_num_opt e o).
Proof. intros A e d o S V s q. rewrite !(num_opt_snd _ e o d). apply num_grabs; assumption. Qed.

Lemma take_digits_more : forall b q ds r, take_digits b = (ds, r) -> r <> [] -> take_digits (b ++ q) = (ds, r ++ q).
Proof.
  induction b as [|x b IH]; intros q ds r H N; cbn [take_digits app] in *; [injection H as <- <-; congruence|].
  destruct (digit_of x); [|injection H as <- <-; reflexivity]. destruct (take_digits b) as [t' r'] eqn:E.
  injection H as <- <-. rewrite (IH q t' r' eq_refl N). reflexivity.
Qed.
Lemma take_sign_more : forall b q, b <> [] -> take_sign (b ++ q) = (fst (take_sign b), snd (take_sign b) ++ q).
Proof. intros [|x b] q N; [congruence|]. unfold take_sign. cbn [app]. destruct x; reflexivity. Qed.
Lemma take_digits_nil : forall b, b = [] -> snd (take_digits (snd (take_sign b))) = [].
Proof. intros b ->. reflexivity. Qed.

Lemma take_digits_over : forall b q ds, take_digits b = (ds, []) -> (List.length (snd (take_digits (b ++ q))) <= List.length q)%nat.
Proof.
  induction b as [|x b IH]; intros q ds H; cbn [app]; [apply take_digits_length|]. cbn [take_digits] in *. destruct (digit_of x); [|discriminate].
  destruct (take_digits b) as [t' r'] eqn:E. injection H as _ ->. specialize (IH q t' eq_refl). destruct (take_digits (b ++ q)). exact IH.
Qed.
(** Sign and digits are all that the integer readers consume. *)
Definition digits_left (b : bytes) : bytes := snd (take_digits (snd (take_sign b))).
Lemma digits_left_le : forall b, (List.length (digits_left b) <= List.length b)%nat.
Proof. intro b. unfold digits_left. pose proof (take_digits_length (snd (take_sign b))). pose proof (take_sign_length b). lia. Qed.
Lemma digits_left_over : forall b q, digits_left b = [] -> (List.length (digits_left (b ++ q)) <= List.length q)%nat.
Proof.
  intros b q H. destruct b as [|x b]; [apply digits_left_le|]. unfold digits_left in *. rewrite take_sign_more by discriminate. cbn [snd].
  destruct (take_digits (snd (take_sign (x :: b)))) as [ds r] eqn:E. cbn [snd] in H. subst r. eapply take_digits_over. exact E.
Qed.
Lemma int_left : forall b, snd (extract_int b) = digits_left b.
Proof.
  intro b. unfold extract_int, digits_left. destruct (take_sign b) as [neg b1]. cbn [snd]. destruct (take_digits b1) as [[|d ds] b2]; [reflexivity|].
  destruct (_ <? INT_MIN); [reflexivity|]. destruct (INT_MAX <? _); reflexivity.
Qed.
Lemma size_left : forall b, snd (extract_size b) = digits_left b.
Proof.
  intro b. unfold extract_size, digits_left. destruct (take_sign b) as [neg b1]. cbn [snd]. destruct (take_digits b1) as [[|d ds] b2]; [reflexivity|].
  destruct (SIZE_MAX <? _); reflexivity.
Qed.
Lemma overs_int : overs extract_int.
Proof.
  split; [intro b; rewrite int_left; apply digits_left_le|]. intros b q v fl E. rewrite int_left. apply digits_left_over.
  rewrite <- int_left, E. reflexivity.
Qed.
Lemma overs_size : overs extract_size.
Proof.
  split; [intro b; rewrite size_left; apply digits_left_le|]. intros b q v fl E. rewrite size_left. apply digits_left_over.
  rewrite <- size_left, E. reflexivity.
Qed.
Lemma stops_int : stops extract_int.
Proof.
  intros b q v fl r H N. assert (NB : b <> []). { intros ->. injection H as <- <- <-. congruence. }
  unfold extract_int in *. rewrite take_sign_more by exact NB. destruct (take_sign b) as [neg b1]. cbn [fst snd] in *.
  destruct (take_digits b1) as [ds b2] eqn:E.
  assert (R : r = b2).
  { destruct ds; [injection H; congruence|]. destruct (_ <? INT_MIN); [injection H; congruence|]. destruct (INT_MAX <? _); injection H; congruence. }
  subst b2. rewrite (take_digits_more _ q _ _ E N). destruct ds as [|d ds]; [injection H as <- <-; reflexivity|].
  destruct (_ <? INT_MIN); [injection H as <- <-; reflexivity|]. destruct (INT_MAX <? _); injection H as <- <-; reflexivity.
Qed.
Lemma stops_size : stops extract_size.
Proof.
  intros b q v fl r H N. assert (NB : b <> []). { intros ->. injection H as <- <- <-. congruence. }
  unfold extract_size in *. rewrite take_sign_more by exact NB. destruct (take_sign b) as [neg b1]. cbn [fst snd] in *.
  destruct (take_digits b1) as [ds b2] eqn:E.
  assert (R : r = b2).
  { destruct ds; [injection H; congruence|]. destruct (SIZE_MAX <? _); injection H; congruence. }
  subst b2. rewrite (take_digits_more _ q _ _ E N). destruct ds as [|d ds]; [injection H as <- <-; reflexivity|].
  destruct (SIZE_MAX <? _); injection H as <- <-; reflexivity.
Qed.

Lemma scan_more : forall n b q fm fd fs t r, (List.length b <= n)%nat -> scan_float fm fd fs b = (t, r) -> r <> [] ->
  scan_float fm fd fs (b ++ q) = (t, r ++ q).
Proof.
  induction n as [|n IH]; intros [|x b] q fm fd fs t r L H N; cbn [List.length] in L;
    try (cbn in H; injection H as <- <-; congruence); try lia.
  cbn [scan_float app] in *. destruct (is_digit x).
  { destruct (scan_float true fd fs b) as [t' r'] eqn:E. injection H as <- <-.
    rewrite (IH b q true fd fs t' r'); [reflexivity|lia|exact E|exact N]. }
  destruct (Byte.eqb x x2e && negb fd && negb fs).
  { destruct (scan_float fm true fs b) as [t' r'] eqn:E. injection H as <- <-.
    rewrite (IH b q fm true fs t' r'); [reflexivity|lia|exact E|exact N]. }
  destruct ((Byte.eqb x x65 || Byte.eqb x x45) && negb fs && fm); [|injection H as <- <-; reflexivity].
  destruct b as [|y b]; [cbn in H; injection H as <- <-; congruence|]. cbn [app].
  assert (Gen : forall l t0 r0, (List.length l <= n)%nat -> scan_float fm fd true l = (t0, r0) -> r0 <> [] ->
    scan_float fm fd true (l ++ q) = (t0, r0 ++ q)) by (intros; apply IH; assumption).
  cbn [List.length] in L.
  destruct y; try (match type of H with (let (_, _) := ?X in _) = _ => destruct X as [t' r'] eqn:E end;
    injection H as <- <-;
    first [ rewrite (Gen b t' r'); [reflexivity|lia|exact E|exact N]
          | match goal with |- context [scan_float fm fd true (?y :: b ++ q)] =>
              change (y :: b ++ q) with ((y :: b) ++ q); rewrite (Gen (y :: b) t' r'); [reflexivity|cbn [List.length]; lia|exact E|exact N] end ]).
Qed.
Lemma stops_double : stops extract_double.
Proof.
  intros b q v fl r H N. assert (NB : b <> []). { intros ->. injection H as <- <- <-. congruence. }
  unfold extract_double in *. rewrite take_sign_more by exact NB. destruct (take_sign b) as [neg b1]. cbn [fst snd] in *.
  destruct (scan_float false false false b1) as [t b2] eqn:E.
  assert (R : r = b2).
  { destruct (parse_dec t) as [[m e]|]; [|injection H; congruence]. destruct (inf_mag <=? _); injection H; congruence. }
  subst b2. rewrite (scan_more (List.length b1) b1 q false false false t r); [|lia|exact E|exact N].
  destruct (parse_dec t) as [[m e]|]; [|injection H as <- <-; reflexivity].
  destruct (inf_mag <=? _); injection H as <- <-; reflexivity.
Qed.

Lemma scan_le : forall fm fd fs b, (List.length (snd (scan_float fm fd fs b)) <= List.length b)%nat.
Proof. intros. eapply scan_float_length. apply le_n. Qed.
Lemma scan_over : forall n b q fm fd fs t, (List.length b <= n)%nat -> scan_float fm fd fs b = (t, []) ->
  (List.length (snd (scan_float fm fd fs (b ++ q))) <= List.length q)%nat.
Proof.
  induction n as [|n IH]; intros [|x b] q fm fd fs t L H; cbn [List.length] in L; try apply scan_le; try lia.
  cbn [scan_float app] in *. destruct (is_digit x).
  { destruct (scan_float true fd fs b) as [t' r'] eqn:E. injection H as _ ->.
    pose proof (IH b q true fd fs t' ltac:(lia) E) as P. destruct (scan_float true fd fs (b ++ q)). exact P. }
  destruct (Byte.eqb x x2e && negb fd && negb fs).
  { destruct (scan_float fm true fs b) as [t' r'] eqn:E. injection H as _ ->.
    pose proof (IH b q fm true fs t' ltac:(lia) E) as P. destruct (scan_float fm true fs (b ++ q)). exact P. }
  destruct ((Byte.eqb x x65 || Byte.eqb x x45) && negb fs && fm); [|discriminate].
  destruct b as [|y b]; cbn [app].
  { destruct q as [|z q]; [apply le_n|]. pose proof (scan_le fm fd true q). pose proof (scan_le fm fd true (z :: q)) as P. cbn [List.length] in *.
    destruct z; try (destruct (scan_float fm fd true q); cbn [snd] in *; lia);
    match goal with |- context [scan_float fm fd true (?z :: q)] => destruct (scan_float fm fd true (z :: q)); cbn [snd] in *; lia end. }
  cbn [List.length] in L.
  destruct y; match type of H with (let (_, _) := ?X in _) = _ => destruct X as [t' r'] eqn:E end; injection H as _ ->;
    first [ pose proof (IH b q fm fd true t' ltac:(lia) E) as P; destruct (scan_float fm fd true (b ++ q)); exact P
          | match type of E with scan_float fm fd true (?y :: b) = _ =>
              pose proof (IH (y :: b) q fm fd true t' ltac:(cbn [List.length]; lia) E) as P; cbn [app] in P;
              destruct (scan_float fm fd true (y :: b ++ q)); exact P end ].
Qed.
Definition scan_left (b : bytes) : bytes := snd (scan_float false false false (snd (take_sign b))).
Lemma double_left : forall b, snd (extract_double b) = scan_left b.
Proof.
  intro b. unfold extract_double, scan_left. destruct (take_sign b) as [neg b1]. cbn [snd]. destruct (scan_float false false false b1) as [t b2].
  destruct (parse_dec t) as [[m e]|]; [|reflexivity]. destruct (inf_mag <=? _); reflexivity.
Qed.
Lemma scan_left_le : forall b, (List.length (scan_left b) <= List.length b)%nat.
Proof. intro b. unfold scan_left. pose proof (scan_le false false false (snd (take_sign b))). pose proof (take_sign_length b). lia. Qed.
Lemma overs_double : overs extract_double.
Proof.
  split; [intro b; rewrite double_left; apply scan_left_le|]. intros b q v fl E. rewrite double_left.
  assert (H : scan_left b = []) by (rewrite <- double_left, E; reflexivity).
  destruct b as [|x b]; [apply scan_left_le|]. unfold scan_left in *. rewrite take_sign_more by discriminate. cbn [snd].
  destruct (scan_float false false false (snd (take_sign (x :: b)))) as [ds r] eqn:E'. cbn [snd] in H. subst r. eapply scan_over; [apply le_n|exact E'].
Qed.

Lemma ext_int : forall o, ext (op (rd_int o)).
Proof. intro o. apply ext_op; [apply mono_op_int|intros; apply num_more; [apply stops_int|assumption]|apply num_grabs; [apply stops_int|apply overs_int]]. Qed.
Lemma ext_size : forall o, ext (op (rd_size o)).
Proof. intro o. apply ext_op; [apply mono_op_size|intros; apply num_more; [apply stops_size|assumption]|apply num_grabs; [apply stops_size|apply overs_size]]. Qed.
Lemma ext_double : forall o, ext (op (rd_double o)).
Proof. intro o. apply ext_op; [apply mono_op_double|intros; apply num_more; [apply stops_double|assumption]|apply num_grabs; [apply stops_double|apply overs_double]]. Qed.
Lemma ext_int_opt : forall o, ext (op (rd_int_opt o)).
Proof. intro o. apply ext_op; [apply mono_op_int_opt|intros; apply num_opt_more; [apply stops_int|assumption]|apply (num_opt_grabs _ _ 0); [apply stops_int|apply overs_int]]. Qed.
Lemma ext_size_opt : forall o, ext (op (rd_size_opt o)).
Proof. intro o. apply ext_op; [apply mono_op_size_opt|intros; apply num_opt_more; [apply stops_size|assumption]|apply (num_opt_grabs _ _ 0); [apply stops_size|apply overs_size]]. Qed.

Lemma unquote_more : forall n b q t r, (List.length b <= n)%nat -> unquote b = (t, Some r) -> unquote (b ++ q) = (t, Some (r ++ q)).
Proof.
  induction n as [|n IH]; intros [|x b] q t r L H; cbn [List.length] in L; try discriminate; try lia.
  cbn [app]. cbn [unquote] in *.
  assert (Gen : forall l t0 r0, (List.length l <= n)%nat -> unquote l = (t0, Some r0) -> unquote (l ++ q) = (t0, Some (r0 ++ q))) by (intros; apply IH; assumption).
  destruct x; try (destruct (unquote b) as [t' r'] eqn:E; injection H as <- ->; rewrite (Gen b t' r ltac:(lia) E); reflexivity).
  - injection H as <- <-. reflexivity.
  - destruct b as [|y b]; [discriminate|]. cbn [app]. destruct (unquote b) as [t' r'] eqn:E. injection H as <- ->.
    cbn [List.length] in L. rewrite (Gen b t' r ltac:(lia) E). reflexivity.
Qed.
Lemma quoted_more : forall o s q, good (snd (rd_quoted o s)) = true -> rd_quoted o (more q s) = (fst (rd_quoted o s), more q (snd (rd_quoted o s))).
Proof.
  intros o s q G. unfold rd_quoted in *. destruct (sentry s) as [ok s1] eqn:ES.
  pose proof (sentry_more s q) as HM. pose proof (sentry_bad s) as HB. rewrite ES in *. cbn [fst snd] in *.
  destruct ok; cbn [snd] in G; [|rewrite HB in G by reflexivity; discriminate]. destruct HM as (-> & N & _ & _); [reflexivity|].
  unfold more at 1. cbn [rest]. destruct (rest s1) as [|x b] eqn:ER; [congruence|]. cbn [app].
  assert (T := token_more o s1 q).
  destruct x; try (apply T; exact G).
  destruct (unquote b) as [t [r|]] eqn:EU; [|discriminate].
  rewrite (unquote_more _ b q t r (le_n _) EU). reflexivity.
Qed.
Lemma quote_le : forall b t r, unquote b = (t, Some r) -> (List.length r <= List.length b)%nat.
Proof. intros b t r E. pose proof (unquote_length (List.length b) b t r (le_n _) E). lia. Qed.
Lemma unquote_over : forall n b q t, (List.length b <= n)%nat -> unquote b = (t, None) ->
  forall t' r', unquote (b ++ q) = (t', Some r') -> (List.length r' <= List.length q)%nat.
Proof.
  induction n as [|n IH]; intros [|x b] q t L H t' r' H'; cbn [List.length] in L; try lia;
    try (cbn [app] in H'; exact (quote_le q t' r' H')).
  cbn [app] in H'. cbn [unquote] in H, H'.
  assert (Gen : forall l t0 t1, (List.length l <= n)%nat -> unquote l = (t0, None) -> unquote (l ++ q) = (t1, Some r') -> (List.length r' <= List.length q)%nat)
    by (intros l t0 t1 L0 E0 E1; eapply IH; eassumption).
  destruct x; try (destruct (unquote b) as [t0 r0] eqn:E; injection H as _ ->; destruct (unquote (b ++ q)) as [t1 r1] eqn:E'; injection H' as _ ->;
    eapply Gen; [|exact E|exact E']; lia).
  - discriminate.
  - destruct b as [|y b].
    + cbn [app] in H'. destruct q as [|z q]; [discriminate|]. destruct (unquote q) as [t1 r1] eqn:E'. injection H' as _ ->.
      pose proof (quote_le q _ _ E'). cbn [List.length]. lia.
    + cbn [app] in H'. cbn [List.length] in L. destruct (unquote b) as [t0 r0] eqn:E; injection H as _ ->; destruct (unquote (b ++ q)) as [t1 r1] eqn:E'; injection H' as _ ->;
      eapply Gen; [|exact E|exact E']; lia.
Qed.
Lemma quoted_le : forall o s, (List.length (rest (snd (rd_quoted o s))) <= List.length (rest (snd (sentry s))))%nat.
Proof.
  intros o s. unfold rd_quoted. destruct (sentry s) as [[|] s1]; cbn [snd]; [|apply le_n].
  assert (T : (List.length (rest (snd (rd_token o s1))) <= List.length (rest s1))%nat) by (apply adv_rd_token).
  destruct (rest s1) as [|x b] eqn:E; [exact T|]. destruct x; try exact T.
  destruct (unquote b) as [t [r|]] eqn:EU; cbn [snd with_rest rest List.length]; [|lia]. pose proof (quote_le b t r EU). lia.
Qed.
Lemma quoted_grabs : forall o, grabs (rd_quoted o).
Proof.
  intros o s q B G. pose proof (quoted_le o (more q s)) as QL. unfold rd_quoted in *.
  destruct (sentry s) as [ok s1] eqn:ES. destruct (sentry (more q s)) as [ok' t1] eqn:ET.
  pose proof (sentry_more s q) as HM. pose proof (sentry_none s q) as HN. pose proof (sentry_bad (more q s)) as HB. rewrite ES, ET in *. cbn [fst snd] in *.
  destruct ok'; cbn [snd] in *; [|rewrite HB in G by reflexivity; discriminate].
  destruct ok; [|specialize (HN eq_refl eq_refl); lia]. clear QL HN HB.
  destruct HM as (X & N & F1 & F2); [reflexivity|]. injection X as ->. cbn [more rest] in *.
  fold (more q s1) in *. pose proof (token_grabs o s1 q) as T.
  destruct (rest s1) as [|x b] eqn:ER; [congruence|]. cbn [app] in *.
  destruct x; try (apply T; assumption).
  destruct (unquote b) as [t [r|]] eqn:EU; cbn [snd] in B.
  { unfold good in B. cbn [with_rest eofb failb] in B. rewrite F1, F2 in B. discriminate. }
  destruct (unquote (b ++ q)) as [t' [r'|]] eqn:EU'; [|discriminate]. cbn [snd with_rest rest].
  eapply unquote_over; [apply le_n|exact EU|exact EU'].
Qed.
Lemma ext_quoted : forall o, ext (op (rd_quoted o)).
Proof. intro o. apply ext_op; [apply mono_op_quoted|apply quoted_more|apply quoted_grabs]. Qed.

(** ** Unformatted reads *)
Lemma noskip_more : forall s q, sentry_noskip (more q s) = (fst (sentry_noskip s), more q (snd (sentry_noskip s))).
Proof. intros s q. unfold sentry_noskip. rewrite good_more. destruct (good s); reflexivity. Qed.
Lemma noskip_bad : forall s, fst (sentry_noskip s) = false -> good (snd (sentry_noskip s)) = false.
Proof. intros s H. unfold sentry_noskip in *. destruct (good s); [discriminate|]. cbn [snd]. unfold good, set_fail. cbn [failb]. apply andb_false_r. Qed.

Lemma peek_more : forall s q, good (snd (peek s)) = true -> peek (more q s) = (fst (peek s), more q (snd (peek s))).
Proof.
  intros s q G. unfold peek in *. rewrite noskip_more. pose proof (noskip_bad s) as HB.
  destruct (sentry_noskip s) as [ok s1]. cbn [fst snd] in *. destruct ok; cbn [snd] in G; [|rewrite HB in G by reflexivity; discriminate].
  cbn [more rest]. destruct (rest s1) as [|x r] eqn:E; [discriminate|]. reflexivity.
Qed.
Lemma get_more : forall s q, good (get_char s) = true -> get_char (more q s) = more q (get_char s).
Proof.
  intros s q G. unfold get_char in *. rewrite noskip_more. pose proof (noskip_bad s) as HB.
  destruct (sentry_noskip s) as [ok s1]. cbn [fst snd] in *. destruct ok; cbn [snd] in G; [|rewrite HB in G by reflexivity; discriminate].
  cbn [more rest]. destruct (rest s1) as [|x r] eqn:E; [discriminate|]. reflexivity.
Qed.
Lemma peek_was : forall s, good (snd (peek s)) = true -> good s = true.
Proof. intros s G. destruct (good s) eqn:X; [reflexivity|]. rewrite (adv_good _ _ (adv_peek s) X) in G. discriminate. Qed.
Lemma get_was : forall s, good (get_char s) = true -> good s = true.
Proof. intros s G. destruct (good s) eqn:X; [reflexivity|]. rewrite (adv_good _ _ (adv_get_char s) X) in G. discriminate. Qed.

Lemma peek_grabs : grabs peek.
Proof.
  intros s q B G. unfold peek in *. rewrite noskip_more in *. pose proof (noskip_bad s) as HB.
  assert (K : fst (sentry_noskip s) = true -> good (snd (sentry_noskip s)) = true) by (unfold sentry_noskip; destruct (good s) eqn:X; [intro; exact X|discriminate]).
  destruct (sentry_noskip s) as [ok s1]. cbn [fst snd] in *. destruct ok; cbn [snd] in *.
  - specialize (K eq_refl). cbn [more rest] in *. destruct (rest s1) as [|x r] eqn:E; cbn [snd app] in *; [|congruence].
    destruct q as [|z q]; [discriminate|]. cbn [snd more rest]. rewrite E. apply le_n.
  - rewrite good_more in G. rewrite HB in G by reflexivity. discriminate.
Qed.
Lemma get_grabs : forall s q, good (get_char s) = false -> good (get_char (more q s)) = true -> (List.length (rest (get_char (more q s))) <= List.length q)%nat.
Proof.
  intros s q B G. unfold get_char in *. rewrite noskip_more in *. pose proof (noskip_bad s) as HB.
  assert (K : fst (sentry_noskip s) = true -> good (snd (sentry_noskip s)) = true) by (unfold sentry_noskip; destruct (good s) eqn:X; [intro; exact X|discriminate]).
  destruct (sentry_noskip s) as [ok s1]. cbn [fst snd] in *. destruct ok; cbn [snd] in *.
  - specialize (K eq_refl). cbn [more rest] in *. destruct (rest s1) as [|x r] eqn:E; cbn [snd app] in *.
    + destruct q as [|z q]; [discriminate|]. cbn [with_rest rest List.length]. lia.
    + unfold good in B, K. cbn [with_rest eofb failb] in B. congruence.
  - rewrite good_more in G. rewrite HB in G by reflexivity. discriminate.
Qed.
Lemma peek_le : forall s, (List.length (rest (snd (peek s))) <= List.length (rest s))%nat.
Proof. intro s. apply adv_peek. Qed.
Lemma get_le : forall s, (List.length (rest (get_char s)) <= List.length (rest s))%nat.
Proof. intro s. apply adv_get_char. Qed.
Lemma eat1_more : forall s q, good (snd (eat1 s)) = true -> eat1 (more q s) = (fst (eat1 s), more q (snd (eat1 s))).
Proof.
  intros s q G. unfold eat1 in *. destruct (peek s) as [x s1] eqn:E.
  assert (P : good s1 = true -> peek (more q s) = (x, more q s1)).
  { intro G1. pose proof (peek_more s q) as P. rewrite E in P. apply P. exact G1. }
  destruct (is_eaten x) eqn:EX; cbn [fst snd] in *.
  - pose proof (peek_was _ G) as G2. pose proof (get_was _ G2) as G3. rewrite (P G3), EX. cbn [fst snd].
    rewrite (get_more _ q G2), (peek_more _ q G). reflexivity.
  - rewrite (P G), EX. reflexivity.
Qed.
Lemma eat1_le : forall s, (List.length (rest (snd (eat1 s))) <= List.length (rest s))%nat.
Proof. intro s. apply adv_eat1. Qed.
Lemma eat1_grabs : grabs eat1.
Proof.
  intros s q B G. unfold eat1 in *. destruct (peek s) as [x s1] eqn:E. destruct (peek (more q s)) as [x' t1] eqn:E'.
  pose proof (peek_more s q) as PM. pose proof (peek_grabs s q) as PG. rewrite E, E' in *. cbn [fst snd] in *.
  assert (GT : good t1 = true).
  { destruct (is_eaten x'); cbn [snd] in G; [|exact G]. apply get_was, peek_was, G. }
  destruct (good s1) eqn:G1.
  - specialize (PM eq_refl). injection PM as -> ->. destruct (is_eaten x); cbn [snd] in *; [|congruence].
    pose proof (get_more s1 q) as GM. pose proof (get_grabs s1 q) as GG. destruct (good (get_char s1)) eqn:G2.
    + rewrite (GM eq_refl) in *. apply peek_grabs; assumption.
    + pose proof (peek_was _ G) as G3. specialize (GG eq_refl G3). pose proof (peek_le (get_char (more q s1))). lia.
  - specialize (PG eq_refl GT). destruct (is_eaten x'); cbn [snd] in *; [|exact PG].
    pose proof (peek_le (get_char t1)). pose proof (get_le t1). lia.
Qed.
Lemma ext_eat1 : ext (op eat1).
Proof. apply ext_op; [apply mono_op_eat1|apply eat1_more|apply eat1_grabs]. Qed.

Lemma get_shorter : forall s, good s = true -> good (get_char s) = true -> (List.length (rest (get_char s)) < List.length (rest s))%nat.
Proof.
  intros s G G'. unfold get_char, sentry_noskip in *. rewrite G in *. destruct (rest s) as [|x r] eqn:E; [discriminate|].
  cbn [with_rest rest List.length]. lia.
Qed.
Lemma eat_loop_more : forall f x s q f', (List.length (rest s) < f)%nat -> (List.length (rest s ++ q) < f')%nat ->
  good (eat_all_loop f x s) = true -> eat_all_loop f' x (more q s) = more q (eat_all_loop f x s).
Proof.
  induction f as [|f IH]; intros x s q f' L L' G; [lia|]. destruct f' as [|f']; [lia|].
  cbn [eat_all_loop] in *. destruct (is_eaten x); [|reflexivity].
  destruct (peek (get_char s)) as [y s2] eqn:E.
  assert (G2 : good s2 = true).
  { destruct (good s2) eqn:X; [reflexivity|]. rewrite (adv_good _ _ (adv_eat_loop f y s2) X) in G. discriminate. }
  assert (G1 : good (get_char s) = true) by (apply peek_was; rewrite E; exact G2).
  pose proof (get_was _ G1) as G0. rewrite (get_more _ q G1). pose proof (peek_more (get_char s) q) as P. rewrite E in P.
  rewrite (P G2). cbn [fst snd].
  assert (S2 : (List.length (rest s2) <= List.length (rest (get_char s)))%nat).
  { pose proof (adv_peek (get_char s)) as A. rewrite E in A. apply A. }
  pose proof (get_shorter s G0 G1). rewrite app_length in L'. apply IH; [lia|rewrite app_length; lia|exact G].
Qed.
Lemma eat_all_more : forall s q, good (snd (eat_all s)) = true -> eat_all (more q s) = (fst (eat_all s), more q (snd (eat_all s))).
Proof.
  intros s q G. unfold eat_all in *. destruct (peek s) as [x s1] eqn:E. cbn [fst snd] in *.
  assert (G1 : good s1 = true).
  { destruct (good s1) eqn:X; [reflexivity|]. rewrite (adv_good _ _ (adv_eat_loop _ x s1) X) in G. discriminate. }
  pose proof (peek_more s q) as P. rewrite E in P. rewrite (P G1). cbn [fst snd more rest].
  assert (S1 : (List.length (rest s1) <= List.length (rest s))%nat).
  { pose proof (adv_peek s) as A. rewrite E in A. apply A. }
  rewrite (eat_loop_more (S (List.length (rest s)))); [reflexivity|lia|rewrite !app_length; lia|exact G].
Qed.
Lemma eat_loop_le : forall f x s, (List.length (rest (eat_all_loop f x s)) <= List.length (rest s))%nat.
Proof. intros. apply adv_eat_loop. Qed.
Lemma eat_loop_was : forall f x s, good (eat_all_loop f x s) = true -> good s = true.
Proof. intros f x s G. destruct (good s) eqn:X; [reflexivity|]. rewrite (adv_good _ _ (adv_eat_loop f x s) X) in G. discriminate. Qed.
Lemma eat_loop_grabs : forall f x s q f', (List.length (rest s) < f)%nat -> (List.length (rest s ++ q) < f')%nat -> good s = true ->
  good (eat_all_loop f x s) = false -> good (eat_all_loop f' x (more q s)) = true -> (List.length (rest (eat_all_loop f' x (more q s))) <= List.length q)%nat.
Proof.
  induction f as [|f IH]; intros x s q f' L L' G B G'; [lia|]. destruct f' as [|f']; [lia|].
  cbn [eat_all_loop] in *. destruct (is_eaten x); [|congruence].
  destruct (peek (get_char s)) as [y s2] eqn:E. destruct (peek (get_char (more q s))) as [y' t2] eqn:E'.
  pose proof (eat_loop_was _ _ _ G') as GT2. pose proof (eat_loop_le f' y' t2) as LE.
  pose proof (get_more s q) as GM. pose proof (get_grabs s q) as GG.
  pose proof (peek_le (get_char (more q s))) as PL. rewrite E' in PL. cbn [snd] in PL.
  assert (GT1 : good (get_char (more q s)) = true) by (apply peek_was; rewrite E'; exact GT2).
  destruct (good (get_char s)) eqn:G1; [|specialize (GG eq_refl GT1); lia].
  rewrite (GM eq_refl) in *. pose proof (peek_more (get_char s) q) as PM. pose proof (peek_grabs (get_char s) q) as PG.
  rewrite E, E' in *. cbn [fst snd] in *. destruct (good s2) eqn:G2; [|specialize (PG eq_refl GT2); lia].
  specialize (PM eq_refl). injection PM as -> ->.
  assert (S2 : (List.length (rest s2) <= List.length (rest (get_char s)))%nat) by (pose proof (peek_le (get_char s)) as A; rewrite E in A; exact A).
  pose proof (get_shorter s G G1). rewrite app_length in L'. apply (IH y s2 q f'); [lia|rewrite app_length; lia|exact G2|exact B|exact G'].
Qed.
Lemma eat_all_grabs : grabs eat_all.
Proof.
  intros s q B G. unfold eat_all in *. destruct (peek s) as [x s1] eqn:E. destruct (peek (more q s)) as [x' t1] eqn:E'.
  pose proof (peek_more s q) as PM. pose proof (peek_grabs s q) as PG. rewrite E, E' in *. cbn [fst snd] in *.
  pose proof (eat_loop_was _ _ _ G) as GT. pose proof (eat_loop_le (S (List.length (rest (more q s)))) x' t1) as LE.
  destruct (good s1) eqn:G1; [|specialize (PG eq_refl GT); lia].
  specialize (PM eq_refl). injection PM as -> ->.
  assert (S1 : (List.length (rest s1) <= List.length (rest s))%nat) by (pose proof (peek_le s) as A; rewrite E in A; exact A).
  eapply eat_loop_grabs; [|cbn [more rest]; rewrite !app_length|exact G1|exact B|exact G]; lia.
Qed.
Lemma ext_eat_all : ext (op eat_all).
Proof. apply ext_op; [apply mono_op_eat_all|apply eat_all_more|apply eat_all_grabs]. Qed.

Lemma raw_more : forall o s q, good (snd (rd_raw o s)) = true -> rd_raw o (more q s) = (fst (rd_raw o s), more q (snd (rd_raw o s))).
Proof.
  intros o s q G. unfold rd_raw in *. rewrite noskip_more. pose proof (noskip_bad s) as HB.
  destruct (sentry_noskip s) as [ok s1]. cbn [fst snd] in *. destruct ok; [|cbn [snd] in G; rewrite HB in G by reflexivity; discriminate].
  cbn [more rest]. destruct (List.length (firstn (List.length o) (rest s1)) <? List.length o)%nat eqn:E; [discriminate|].
  apply Nat.ltb_ge in E. rewrite firstn_length in E. assert (L : (List.length o <= List.length (rest s1))%nat) by lia.
  rewrite firstn_app. replace (List.length o - List.length (rest s1))%nat with O by lia. cbn [firstn]. rewrite app_nil_r.
  assert (E' : (List.length (firstn (List.length o) (rest s1)) <? List.length o)%nat = false) by (apply Nat.ltb_ge; rewrite firstn_length; lia).
  rewrite E'. cbn [fst snd]. rewrite skipn_app. replace (List.length o - List.length (rest s1))%nat with O by lia. reflexivity.
Qed.
Lemma raw_size_more : forall o s q, good (snd (rd_raw_size o s)) = true -> rd_raw_size o (more q s) = (fst (rd_raw_size o s), more q (snd (rd_raw_size o s))).
Proof.
  intros o s q G. unfold rd_raw_size in *. pose proof (raw_more (le 8 o) s q) as P. destruct (rd_raw (le 8 o) s) as [[b k] s']. cbn [fst snd] in *.
  rewrite (P G). reflexivity.
Qed.
Lemma raw_int_more : forall o s q, good (snd (rd_raw_int o s)) = true -> rd_raw_int o (more q s) = (fst (rd_raw_int o s), more q (snd (rd_raw_int o s))).
Proof.
  intros o s q G. unfold rd_raw_int in *. pose proof (raw_more (le 4 o) s q) as P. destruct (rd_raw (le 4 o) s) as [[b k] s']. cbn [fst snd] in *.
  rewrite (P G). reflexivity.
Qed.
Lemma raw_grabs : forall o, grabs (rd_raw o).
Proof.
  intros o s q B G. unfold rd_raw in *. rewrite noskip_more in *. pose proof (noskip_bad s) as HB.
  assert (K : fst (sentry_noskip s) = true -> good (snd (sentry_noskip s)) = true) by (unfold sentry_noskip; destruct (good s) eqn:X; [intro; exact X|discriminate]).
  destruct (sentry_noskip s) as [ok s1]. cbn [fst snd] in *. destruct ok; cbn [snd] in *.
  - specialize (K eq_refl). cbn [more rest] in *. rewrite !firstn_length in *.
    destruct (Nat.min (List.length o) (List.length (rest s1)) <? List.length o)%nat eqn:E; cbn [snd] in B.
    + apply Nat.ltb_lt in E. destruct (Nat.min (List.length o) (List.length (rest s1 ++ q)) <? List.length o)%nat eqn:E'; [discriminate|].
      cbn [snd with_rest rest]. rewrite skipn_length, app_length. lia.
    + unfold good in B, K. cbn [with_rest eofb failb] in B. congruence.
  - rewrite good_more in G. rewrite HB in G by reflexivity. discriminate.
Qed.
Lemma raw_size_snd : forall o s, snd (rd_raw_size o s) = snd (rd_raw (le 8 o) s).
Proof. intros. unfold rd_raw_size. destruct (rd_raw (le 8 o) s) as [[b k] s']. reflexivity. Qed.
Lemma raw_int_snd : forall o s, snd (rd_raw_int o s) = snd (rd_raw (le 4 o) s).
Proof. intros. unfold rd_raw_int. destruct (rd_raw (le 4 o) s) as [[b k] s']. reflexivity. Qed.
Lemma raw_size_grabs : forall o, grabs (rd_raw_size o).
Proof. intros o s q. rewrite !raw_size_snd. apply raw_grabs. Qed.
Lemma raw_int_grabs : forall o, grabs (rd_raw_int o).
Proof. intros o s q. rewrite !raw_int_snd. apply raw_grabs. Qed.
Lemma raw_int_opt_grabs : forall o, grabs (rd_raw_int_opt o).
Proof.
  intros [v|] s q; unfold rd_raw_int_opt.
  - pose proof (raw_int_grabs v s q) as P. destruct (rd_raw_int v s), (rd_raw_int v (more q s)). exact P.
  - pose proof (raw_grabs (repeat x00 4) s q) as P. destruct (rd_raw _ s) as [[b k] s'], (rd_raw _ (more q s)) as [[b' k'] s'']. exact P.
Qed.
Lemma raw_size_opt_grabs : forall o, grabs (rd_raw_size_opt o).
Proof.
  intros [v|] s q; unfold rd_raw_size_opt.
  - pose proof (raw_size_grabs v s q) as P. destruct (rd_raw_size v s), (rd_raw_size v (more q s)). exact P.
  - pose proof (raw_grabs (repeat x00 8) s q) as P. destruct (rd_raw _ s) as [[b k] s'], (rd_raw _ (more q s)) as [[b' k'] s'']. exact P.
Qed.
Lemma ext_raw_size : forall o, ext (op (rd_raw_size o)).
Proof. intro o. apply ext_op; [apply mono_op_raw_size|apply raw_size_more|apply raw_size_grabs]. Qed.
Lemma ext_raw_double : forall o, ext (op (rd_raw_double o)).
Proof. exact ext_raw_size. Qed.
Lemma ext_raw_int : forall o, ext (op (rd_raw_int o)).
Proof. intro o. apply ext_op; [apply mono_op_raw_int|apply raw_int_more|apply raw_int_grabs]. Qed.
Lemma ext_raw_int_opt : forall o, ext (op (rd_raw_int_opt o)).
Proof.
  intro o. apply ext_op; [apply mono_op_raw_int_opt| |apply raw_int_opt_grabs]. intros s q G. unfold rd_raw_int_opt in *. destruct o as [v|].
  - pose proof (raw_int_more v s q) as P. destruct (rd_raw_int v s). cbn [fst snd] in *. rewrite (P G). reflexivity.
  - pose proof (raw_more (repeat x00 4) s q) as P. destruct (rd_raw (repeat x00 4) s) as [[b k] s']. cbn [fst snd] in *. rewrite (P G). reflexivity.
Qed.
Lemma ext_raw_size_opt : forall o, ext (op (rd_raw_size_opt o)).
Proof.
  intro o. apply ext_op; [apply mono_op_raw_size_opt| |apply raw_size_opt_grabs]. intros s q G. unfold rd_raw_size_opt in *. destruct o as [v|].
  - pose proof (raw_size_more v s q) as P. destruct (rd_raw_size v s). cbn [fst snd] in *. rewrite (P G). reflexivity.
  - pose proof (raw_more (repeat x00 8) s q) as P. destruct (rd_raw (repeat x00 8) s) as [[b k] s']. cbn [fst snd] in *. rewrite (P G). reflexivity.
Qed.
Lemma ext_array : forall f, (forall o, ext (op (f o))) -> forall l, ext (rd_raw_array f l).
Proof.
  intros f H l. unfold rd_raw_array. apply ext_bind; [|intro; apply ext_mapM; exact H].
  apply ext_op; [apply mono_sentry| |].
  - intros s q G. rewrite noskip_more. destruct (sentry_noskip s). reflexivity.
  - intros s q B G. rewrite noskip_more in G. destruct (sentry_noskip s). cbn [fst snd] in *. rewrite good_more in G. congruence.
Qed.

Ltac ext1 :=
  first
  [ apply ext_ret | apply ext_throw | apply ext_undef | apply ext_lift | apply ext_use
  | apply ext_massert | apply ext_assert_good
  | apply ext_token | apply ext_int | apply ext_size | apply ext_double
  | apply ext_int_opt | apply ext_size_opt | apply ext_quoted
  | apply ext_eat1 | apply ext_eat_all
  | apply ext_raw_size | apply ext_raw_double | apply ext_raw_int
  | apply ext_raw_int_opt | apply ext_raw_size_opt
  | apply (ext_array rd_raw_size); exact ext_raw_size | apply (ext_array rd_raw_double); exact ext_raw_double
  | apply (ext_array rd_raw_int); exact ext_raw_int
  | (apply ext_mapM; intro) | (apply ext_fill; intro) | (apply ext_iterM; intro)
  | apply ext_bind; [|intro] ].
Ltac ext_go :=
  repeat first [ ext1 | match goal with
    | |- ext (if ?b then _ else _) => destruct b
    | |- ext (let (_, _) := ?p in _) => destruct p
    | |- ext (match ?l with [] => _ | _ => _ end) => destruct l
    end ].

Lemma ext_mesh_format : forall spec, ext (load_mesh_format spec).
Proof. intro. unfold load_mesh_format. ext_go. Qed.
Lemma ext_nodes : forall c spec, ext (load_nodes c spec).
Proof.
  intros. unfold load_nodes, v41_load_nodes_ascii, v41_load_nodes_binary, v22_load_nodes_ascii,
    v22_load_nodes_binary, v41_node_block_ascii, v41_node_block_binary, v22_node_ascii, v22_node_binary, rd_raw_into.
  ext_go.
Qed.
Lemma ext_entities : forall c spec, ext (load_entities c spec).
Proof.
  intros. unfold load_entities, v41_load_entities_ascii, v41_load_entities_binary, resize_entities,
    point_ascii, point_binary, entity_ascii, entity_binary, ints_ascii, ints_binary. ext_go.
Qed.
Lemma ext_groups : forall c spec, ext (load_physical_groups c spec).
Proof. intros. unfold load_physical_groups, load_group. ext_go. Qed.
Lemma ext_data : forall c v b e, ext (load_data c v b e).
Proof. intros. unfold load_data, load_data_header, entry_binary, entry_ascii. ext_go. Qed.
Lemma ext_curves : forall c spec, ext (load_curves c spec).
Proof. intros. unfold load_curves, load_curve. ext_go. Qed.
Lemma ext_patches : forall c spec, ext (load_patches c spec).
Proof. intros. unfold load_patches, load_patch. ext_go. Qed.

Lemma ext_elements_loop : forall f c N st, ext (v22_elements_loop f c N st).
Proof.
  induction f as [|f IH]; intros c N st; cbn [v22_elements_loop].
  - split; [intros s a s' H; discriminate|]. split; intros s a s' q H; discriminate.
  - destruct (vb_done st =? N); [apply ext_ret|]. unfold v22_element_binary.
    repeat first [apply IH | ext1 | match goal with
    | |- ext (if ?b then _ else _) => destruct b
    | |- ext (let (_, _) := ?p in _) => destruct p
    end].
Qed.
Lemma bind_fuel : forall A B (m : M A) (k k' : A -> M B) s, (forall a s1, k a s1 <> Diverge -> k' a s1 = k a s1) ->
  bind m k s <> Diverge -> bind m k' s = bind m k s.
Proof. intros A B m k k' s H E. unfold bind in *. destruct (m s) as [[a s1]| | | |]; try reflexivity. apply H. exact E. Qed.
Lemma elements_loop_fuel : forall f f' c N st s, (f <= f')%nat -> v22_elements_loop f c N st s <> Diverge ->
  v22_elements_loop f' c N st s = v22_elements_loop f c N st s.
Proof.
  induction f as [|f IH]; intros f' c N st s L E; [elim E; reflexivity|]. destruct f' as [|f']; [lia|].
  cbn [v22_elements_loop] in *. destruct (vb_done st =? N); [reflexivity|]. revert E.
  repeat (apply bind_fuel; intros ? ?; try (apply IH; lia)).
Qed.
Lemma ext_elements_run : forall c N st, ext (fun s => v22_elements_loop (S (List.length (rest s))) c N st s).
Proof.
  intros c N st. split; [intros s x s' H; eapply mono_elements_loop; exact H|]. split.
  - intros s a s' q E G. cbn [more rest]. rewrite (elements_loop_fuel (S (List.length (rest s)))).
    + eapply (proj1 (proj2 (ext_elements_loop _ _ _ _))); eassumption.
    + rewrite app_length. lia.
    + rewrite (proj1 (proj2 (ext_elements_loop _ _ _ _)) _ _ _ q E G). discriminate.
  - intros s a t q E G L. destruct (proj2 (proj2 (ext_elements_loop _ _ _ _)) _ _ _ _ E G L) as (s' & E' & ->). exists s'. split; [|reflexivity].
    rewrite <- E'. symmetry. apply elements_loop_fuel; [cbn [more rest]; rewrite app_length; lia|].
    apply elements_loop_nodiv. lia.
Qed.
Lemma ext_elements : forall c spec, ext (load_elements c spec).
Proof.
  intros. unfold load_elements, v41_load_elements_ascii, v41_load_elements_binary,
    v22_load_elements_ascii, v22_load_elements_binary, v41_element_block_ascii,
    v41_element_block_binary, v22_element_ascii.
  repeat first [ ext1 | match goal with
    | |- ext (if ?b then _ else _) => destruct b
    | |- ext (let (_, _) := ?p in _) => destruct p
    | |- ext (match ?l with [] => _ | _ => _ end) => destruct l
    end ].
  apply ext_elements_run.
Qed.

Lemma ext_dispatch : forall c buf spec, ext (dispatch c buf spec).
Proof.
  intros. unfold dispatch.
  repeat match goal with |- ext (if ?b then _ else _) => destruct b end.
  - apply ext_mesh_format.
  - apply ext_entities.
  - apply ext_groups.
  - apply ext_nodes.
  - apply ext_elements.
  - unfold load_node_data. apply ext_bind; [apply ext_data|intro; apply ext_ret].
  - unfold load_element_data. apply ext_bind; [apply ext_data|intro; apply ext_ret].
  - unfold load_element_node_data. apply ext_bind; [apply ext_data|intro; apply ext_ret].
  - unfold load_nanospline_format. ext_go.
  - apply ext_curves.
  - apply ext_patches.
  - apply ext_ret.
Qed.
