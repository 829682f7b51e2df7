(** Text is read the same however it is typed. *)

From Verif Require Import Model.LoadMsh Model.Save Spec.Spacing Proofs.BytesP Proofs.RtBase Proofs.NumeralsP Proofs.FormatP Proofs.Fuel.

Ltac Zify.zify_post_hook ::= idtac.

(** ** Two streams *)

Definition laid2 (ws : list bytes) (r1 r2 : bytes) : Prop := typed ws r1 /\ typed ws r2.
Definition outq (r1 r2 : bytes) : Prop := exists ws, tidy ws /\ laid2 ws r1 r2.
(** Inside a quoted string. *)
Definition inq (r1 r2 : bytes) : Prop :=
  exists p ws, ~ In x24 p /\ tidy ws /\ laid_out ((p ++ [x22]) :: ws) r1 /\ laid_out ((p ++ [x22]) :: ws) r2.
Definition anyq (r1 r2 : bytes) : Prop := outq r1 r2 \/ inq r1 r2.

Definition twin (P : bytes -> bytes -> Prop) (s1 s2 : istream) : Prop :=
  eofb s1 = eofb s2 /\ failb s1 = failb s2 /\ (failb s1 = false -> P (rest s1) (rest s2)).

Lemma twin_mono : forall (P Q : bytes -> bytes -> Prop) s1 s2, (forall a b, P a b -> Q a b) -> twin P s1 s2 -> twin Q s1 s2.
Proof. intros P Q s1 s2 H (A & B & C). split; [exact A|]. split; [exact B|]. intro F. apply H, C, F. Qed.

Lemma twin_dead : forall P s1 s2, eofb s1 = eofb s2 -> failb s1 = true -> failb s2 = true -> twin P s1 s2.
Proof. intros P s1 s2 A B C. split; [exact A|]. split; [congruence|]. intro F. congruence. Qed.

Lemma tidy_tl : forall w ws, tidy (w :: ws) -> tidy ws.
Proof.
  intros w ws (A & B). split; [exact (Forall_inv_tail A)|]. intros l p v x r E.
  apply (B (w :: l) p v x r). rewrite E. reflexivity.
Qed.

Lemma tidy_suffix : forall a b ws, unquoted b -> tidy ((a ++ b) :: ws) -> tidy (b :: ws).
Proof.
  intros a b ws Hb (A & B). split; [constructor; [left; exact Hb|exact (Forall_inv_tail A)]|].
  intros l p v x r E. destruct l as [|y l]; cbn [app] in E.
  - injection E as E1 E2. apply (B [] (a ++ p) v x r). rewrite E1, E2, <- app_assoc. reflexivity.
  - injection E as E1 E2. apply (B ((a ++ b) :: l) p v x r). rewrite E2. reflexivity.
Qed.

Lemma tidy_nil : tidy [].
Proof. split; [constructor|]. intros l p v w r E. destruct l; discriminate. Qed.

Lemma unquoted_tail : forall a b, unquoted (a ++ b) -> b <> [] -> unquoted b.
Proof. intros a b (_ & H) N. split; [exact N|]. apply Forall_app in H. apply H. Qed.

(** First characters. *)
Lemma item_first : forall w, item w -> exists x t, w = x :: t /\ is_ws x = false.
Proof.
  intros w [(N & H)|(n & -> & _)].
  - destruct w as [|x t]; [congruence|]. exists x, t. split; [reflexivity|]. apply (Forall_inv H).
  - eexists _, _. split; [reflexivity|reflexivity].
Qed.

Lemma skip_typed : forall w ws r, typed (w :: ws) r -> item w ->
  exists sep t, blank sep /\ sep <> [] /\ laid_out ws t /\ skip_ws r = w ++ sep ++ t.
Proof.
  intros w ws r (u & t & U & L & ->) I. inversion L as [|? sep ? t' B N L' E1 E2]; subst.
  exists sep, t'. split; [exact B|]. split; [exact N|]. split; [exact L'|].
  rewrite skip_ws_app by exact U. destruct (item_first w I) as (x & y & -> & X). cbn [app skip_ws]. rewrite X. reflexivity.
Qed.

Lemma skip_blank : forall r, typed [] r -> skip_ws r = [].
Proof.
  intros r (u & t & U & L & ->). inversion L; subst. rewrite skip_ws_app by exact U. reflexivity.
Qed.

Lemma typed_sep : forall ws sep t, blank sep -> laid_out ws t -> typed ws (sep ++ t).
Proof. intros ws sep t B L. exists sep, t. auto. Qed.

Lemma typed_word : forall w ws sep t, blank sep -> sep <> [] -> laid_out ws t -> typed (w :: ws) (w ++ sep ++ t).
Proof. intros w ws sep t B N L. exists [], (w ++ sep ++ t). split; [constructor|]. split; [constructor; assumption|reflexivity]. Qed.

(** ** Numbers *)

Definition near {A} (ext : bytes -> A * bool * bytes) : Prop :=
  (forall w, Forall (fun b => is_ws b = false) w -> exists v fl w1 w2, w = w1 ++ w2 /\ forall r, starts_ws r -> ext (w ++ r) = (v, fl, w2 ++ r)) /\
  exists v, forall r, ext (x22 :: r) = (v, true, x22 :: r).

Lemma sign_near : forall w, Forall (fun b => is_ws b = false) w -> exists n w1 w2, w = w1 ++ w2 /\ forall r, starts_ws r -> take_sign (w ++ r) = (n, w2 ++ r).
Proof.
  intros w H. destruct w as [|x w].
  - exists false, [], []. split; [reflexivity|]. intros [|y r] R; [contradiction|]. cbn [app]. cbn [starts_ws] in R.
    destruct y; try reflexivity; discriminate.
  - destruct (Byte.eqb x x2d) eqn:E; [apply byte_eqb_eq in E; subst x; exists true, [x2d], w; split; [reflexivity|]; intros; reflexivity|].
    destruct (Byte.eqb x x2b) eqn:E'; [apply byte_eqb_eq in E'; subst x; exists false, [x2b], w; split; [reflexivity|]; intros; reflexivity|].
    exists false, [], (x :: w). split; [reflexivity|]. intros r R. cbn [app]. destruct x; try reflexivity; discriminate.
Qed.

Lemma digits_near : forall w, Forall (fun b => is_ws b = false) w -> exists ds w1 w2, w = w1 ++ w2 /\ forall r, starts_ws r -> take_digits (w ++ r) = (ds, w2 ++ r).
Proof.
  induction w as [|x w IH]; intro H.
  - exists [], [], []. split; [reflexivity|]. intros r R. cbn [app]. destruct r as [|y r]; [contradiction|]. cbn [starts_ws] in R.
    cbn [take_digits]. destruct y; try reflexivity; discriminate.
  - destruct (IH (Forall_inv_tail H)) as (ds & w1 & w2 & -> & D). cbn [take_digits app].
    destruct (digit_of x) as [d|] eqn:E.
    + exists (d :: ds), (x :: w1), w2. split; [reflexivity|]. intros r R. rewrite D by exact R. reflexivity.
    + exists [], [], (x :: w1 ++ w2). split; reflexivity.
Qed.

Lemma int_near : near extract_int.
Proof.
  split.
  - intros w H. destruct (sign_near w H) as (n & w1 & w2 & -> & S). apply Forall_app in H. destruct H as (_ & H).
    destruct (digits_near w2 H) as (ds & w3 & w4 & -> & D).
    unfold extract_int. destruct ds as [|d ds].
    { exists 0, true, (w1 ++ w3), w4. split; [rewrite app_assoc; reflexivity|]. intros r R. rewrite S, D by exact R. reflexivity. }
    set (v := if n then - digits_val (d :: ds) else digits_val (d :: ds)).
    assert (G : exists x fl, forall b : bytes, (if v <? INT_MIN then (INT_MIN, true, b) else if INT_MAX <? v then (INT_MAX, true, b) else (v, false, b)) = (x, fl, b)).
    { destruct (v <? INT_MIN); [eauto|]. destruct (INT_MAX <? v); eauto. }
    destruct G as (x & fl & G). exists x, fl, (w1 ++ w3), w4. split; [rewrite app_assoc; reflexivity|]. intros r R. rewrite S, D by exact R. apply G.
  - exists 0. reflexivity.
Qed.

Lemma size_near : near extract_size.
Proof.
  split.
  - intros w H. destruct (sign_near w H) as (n & w1 & w2 & -> & S). apply Forall_app in H. destruct H as (_ & H).
    destruct (digits_near w2 H) as (ds & w3 & w4 & -> & D).
    unfold extract_size. destruct ds as [|d ds].
    { exists 0, true, (w1 ++ w3), w4. split; [rewrite app_assoc; reflexivity|]. intros r R. rewrite S, D by exact R. reflexivity. }
    set (v := digits_val (d :: ds)).
    assert (G : exists x fl, forall b : bytes, (if SIZE_MAX <? v then (SIZE_MAX, true, b) else (if n then to_size (- v) else v, false, b)) = (x, fl, b)).
    { destruct (SIZE_MAX <? v); eauto. }
    destruct G as (x & fl & G). exists x, fl, (w1 ++ w3), w4. split; [rewrite app_assoc; reflexivity|]. intros r R. rewrite S, D by exact R. apply G.
  - exists 0. reflexivity.
Qed.

Lemma ws_stops : forall fm fd fs r, starts_ws r -> scan_float fm fd fs r = ([], r).
Proof. intros fm fd fs [|y r] R; [contradiction|]. cbn [starts_ws] in R. destruct y; try discriminate; reflexivity. Qed.

Lemma scan_near : forall n w fm fd fs, (List.length w <= n)%nat -> Forall (fun b => is_ws b = false) w ->
  exists t w1 w2, w = w1 ++ w2 /\ forall r, starts_ws r -> scan_float fm fd fs (w ++ r) = (t, w2 ++ r).
Proof.
  induction n as [|n IH]; intros w fm fd fs L H.
  - destruct w; [|cbn in L; lia]. exists [], [], []. split; [reflexivity|]. intros r R. apply ws_stops. exact R.
  - destruct w as [|x w]; [exists [], [], []; split; [reflexivity|]; intros r R; apply ws_stops; exact R|].
    cbn [List.length] in L. pose proof (Forall_inv_tail H) as H'. cbn [app scan_float].
    destruct (is_digit x).
    { destruct (IH w true fd fs ltac:(lia) H') as (t & w1 & w2 & -> & S). exists (x :: t), (x :: w1), w2. split; [reflexivity|].
      intros r R. rewrite S by exact R. reflexivity. }
    destruct (Byte.eqb x x2e && negb fd && negb fs)%bool.
    { destruct (IH w fm true fs ltac:(lia) H') as (t & w1 & w2 & -> & S). exists (x :: t), (x :: w1), w2. split; [reflexivity|].
      intros r R. rewrite S by exact R. reflexivity. }
    destruct ((Byte.eqb x x65 || Byte.eqb x x45) && negb fs && fm)%bool.
    2:{ exists [], [], (x :: w). split; reflexivity. }
    destruct w as [|y w].
    { exists [x65], [x], []. split; [reflexivity|]. intros [|z r] R; [contradiction|]. cbn [app]. pose proof (ws_stops fm fd true _ R) as S.
      cbn [starts_ws] in R. rewrite S. destruct z; try reflexivity; discriminate. }
    cbn [List.length] in L. pose proof (Forall_inv_tail H') as H''. cbn [app].
    destruct (Byte.eqb y x2b) eqn:E1; [apply byte_eqb_eq in E1; subst y|destruct (Byte.eqb y x2d) eqn:E2; [apply byte_eqb_eq in E2; subst y|]].
    + destruct (IH w fm fd true ltac:(lia) H'') as (t & w1 & w2 & -> & S). exists (x65 :: x2b :: t), (x :: x2b :: w1), w2. split; [reflexivity|].
      intros r R. rewrite S by exact R. reflexivity.
    + destruct (IH w fm fd true ltac:(lia) H'') as (t & w1 & w2 & -> & S). exists (x65 :: x2d :: t), (x :: x2d :: w1), w2. split; [reflexivity|].
      intros r R. rewrite S by exact R. reflexivity.
    + destruct (IH (y :: w) fm fd true ltac:(cbn; lia) H') as (t & w1 & w2 & Ew & S). exists (x65 :: t), (x :: w1), w2.
      split; [rewrite Ew; reflexivity|]. intros r R. pose proof (S r R) as Q. cbn [app] in Q. rewrite Q.
      destruct y; try reflexivity; discriminate.
Qed.

Lemma double_near : near extract_double.
Proof.
  split.
  - intros w H. destruct (sign_near w H) as (n & w1 & w2 & -> & S). apply Forall_app in H. destruct H as (_ & H).
    destruct (scan_near _ w2 false false false (le_n _) H) as (t & w3 & w4 & -> & D).
    unfold extract_double. destruct (parse_dec t) as [[m e]|] eqn:P.
    + destruct (inf_mag <=? round_dec m e) eqn:Q.
      * exists (mk_dbl n max_mag), true, (w1 ++ w3), w4. split; [rewrite app_assoc; reflexivity|]. intros r R.
        rewrite S, D, P by exact R. cbv zeta. rewrite Q. reflexivity.
      * exists (mk_dbl n (round_dec m e)), false, (w1 ++ w3), w4. split; [rewrite app_assoc; reflexivity|]. intros r R.
        rewrite S, D, P by exact R. cbv zeta. rewrite Q. reflexivity.
    + exists 0, true, (w1 ++ w3), w4. split; [rewrite app_assoc; reflexivity|]. intros r R.
      rewrite S, D, P by exact R. reflexivity.
  - exists 0. reflexivity.
Qed.

(** ** Reading *)

Lemma sentry_laid : forall ws s1 s2, tidy ws -> twin (laid2 ws) s1 s2 ->
  (exists s1' s2', sentry s1 = (false, s1') /\ sentry s2 = (false, s2') /\ eofb s1' = eofb s2' /\ failb s1' = true /\ failb s2' = true) \/
  (exists w ws' a1 t1 a2 t2, ws = w :: ws' /\ blank a1 /\ a1 <> [] /\ laid_out ws' t1 /\ blank a2 /\ a2 <> [] /\ laid_out ws' t2 /\
     sentry s1 = (true, opened (w ++ a1 ++ t1)) /\ sentry s2 = (true, opened (w ++ a2 ++ t2))).
Proof.
  intros ws [r1 e1 f1] [r2 e2 f2] T (E & F & P). cbn [eofb failb rest] in *. subst e2 f2.
  unfold sentry, good. cbn [eofb failb rest]. destruct e1; [left; eexists _, _; cbn; auto|]. destruct f1; [left; eexists _, _; cbn; auto|].
  cbn [negb andb]. destruct (P eq_refl) as (L1 & L2). destruct ws as [|w ws].
  - left. rewrite !skip_blank by assumption. eexists _, _. cbn. auto.
  - right. destruct T as (I & _). apply Forall_inv in I.
    destruct (skip_typed w ws r1 L1 I) as (a1 & t1 & A1 & N1 & M1 & ->). destruct (skip_typed w ws r2 L2 I) as (a2 & t2 & A2 & N2 & M2 & ->).
    destruct (item_first w I) as (x & y & -> & X).
    exists (x :: y), ws, a1, t1, a2, t2. repeat (split; [auto; fail|]). split; reflexivity.
Qed.

Lemma sentry_out : forall s1 s2, twin outq s1 s2 ->
  (exists s1' s2', sentry s1 = (false, s1') /\ sentry s2 = (false, s2') /\ eofb s1' = eofb s2' /\ failb s1' = true /\ failb s2' = true) \/
  (exists w ws a1 t1 a2 t2, tidy (w :: ws) /\ blank a1 /\ a1 <> [] /\ laid_out ws t1 /\ blank a2 /\ a2 <> [] /\ laid_out ws t2 /\
     sentry s1 = (true, opened (w ++ a1 ++ t1)) /\ sentry s2 = (true, opened (w ++ a2 ++ t2))).
Proof.
  intros s1 s2 (E & F & P). destruct (failb s1) eqn:F1.
  - left. unfold sentry, good. rewrite F1, <- F, !andb_false_r. eexists _, _. cbn. auto.
  - destruct (P eq_refl) as (ws & T & L). destruct (sentry_laid ws s1 s2 T) as [H|H]; [split; [exact E|split; [congruence|auto]]|left; exact H|].
    right. destruct H as (w & ws' & a1 & t1 & a2 & t2 & -> & H). exists w, ws', a1, t1, a2, t2. auto.
Qed.

(** The same value, and streams that agree again. *)
Definition agree {A} (P : bytes -> bytes -> Prop) (x y : A * istream) : Prop := fst x = fst y /\ twin P (snd x) (snd y).

Lemma at_end_sep : forall a r s, a <> [] -> at_end (a ++ r) s = with_rest (a ++ r) s.
Proof. intros [|x a] r s N; [congruence|reflexivity]. Qed.

Lemma at_end_sep2 : forall w a r s, a <> [] -> at_end (w ++ a ++ r) s = with_rest (w ++ a ++ r) s.
Proof. intros w [|x a] r s N; [congruence|]. destruct w; reflexivity. Qed.

Lemma twin_out : forall ws a1 t1 a2 t2, tidy ws -> blank a1 -> laid_out ws t1 -> blank a2 -> laid_out ws t2 ->
  twin outq (opened (a1 ++ t1)) (opened (a2 ++ t2)).
Proof.
  intros. split; [reflexivity|]. split; [reflexivity|]. intros _. exists ws. split; [assumption|]. split; apply typed_sep; assumption.
Qed.

Lemma unquoted_nows : forall w, unquoted w -> Forall (fun b => is_ws b = false) w.
Proof. intros w (_ & H). eapply Forall_impl; [|exact H]. intros a (X & _). exact X. Qed.

Lemma num_core : forall A (ext : bytes -> A * bool * bytes), near ext -> forall w ws a1 t1 a2 t2,
  tidy (w :: ws) -> blank a1 -> a1 <> [] -> laid_out ws t1 -> blank a2 -> a2 <> [] -> laid_out ws t2 ->
  exists v fl r1 r2, ext (w ++ a1 ++ t1) = (v, fl, r1) /\ ext (w ++ a2 ++ t2) = (v, fl, r2) /\ r1 <> [] /\ r2 <> [] /\ (fl = false -> outq r1 r2).
Proof.
  intros A ext (N & (v0 & Q)) w ws a1 t1 a2 t2 T A1 N1 L1 A2 N2 L2. pose proof (proj1 T) as I. apply Forall_inv in I.
  destruct I as [B|(n & -> & D)].
  - destruct (N w (unquoted_nows w B)) as (v & fl & w1 & w2 & -> & E). exists v, fl, (w2 ++ a1 ++ t1), (w2 ++ a2 ++ t2).
    rewrite !E by (apply starts_ws_app; assumption). repeat (split; [auto; fail|]).
    split; [destruct w2; [|discriminate]; destruct a1; [congruence|discriminate]|].
    split; [destruct w2; [|discriminate]; destruct a2; [congruence|discriminate]|]. intros _.
    destruct w2 as [|x w2].
    + cbn [app]. exists ws. split; [exact (tidy_tl _ _ T)|]. split; apply typed_sep; assumption.
    + exists ((x :: w2) :: ws). split; [apply (tidy_suffix w1); [apply (unquoted_tail w1); [exact B|discriminate]|exact T]|].
      split; apply typed_word; assumption.
  - unfold in_quotes. cbn [app]. rewrite <- !app_assoc. rewrite !Q. eexists v0, true, _, _. repeat (split; [reflexivity|]).
    repeat (split; [discriminate|]). discriminate.
Qed.

Lemma num_out : forall A (ext : bytes -> A * bool * bytes) old s1 s2, near ext -> twin outq s1 s2 ->
  agree outq (rd_num ext old s1) (rd_num ext old s2).
Proof.
  intros A ext old s1 s2 N H. unfold rd_num.
  destruct (sentry_out s1 s2 H) as [(s1' & s2' & -> & -> & E & F1 & F2)|(w & ws & a1 & t1 & a2 & t2 & T & A1 & N1 & L1 & A2 & N2 & L2 & -> & ->)].
  - split; [reflexivity|]. apply twin_dead; assumption.
  - cbn [rest opened]. destruct (num_core A ext N w ws a1 t1 a2 t2 T A1 N1 L1 A2 N2 L2) as (v & fl & r1 & r2 & -> & -> & R1 & R2 & O).
    destruct r1 as [|y1 r1]; [congruence|]. destruct r2 as [|y2 r2]; [congruence|]. split; [reflexivity|]. cbn [at_end snd].
    destruct fl; [apply twin_dead; reflexivity|]. split; [reflexivity|]. split; [reflexivity|]. intros _. exact (O eq_refl).
Qed.

Lemma num_opt_out : forall A (ext : bytes -> A * bool * bytes) old s1 s2, near ext -> twin outq s1 s2 ->
  agree outq (rd_num_opt ext old s1) (rd_num_opt ext old s2).
Proof.
  intros A ext old s1 s2 N H. unfold rd_num_opt.
  destruct (sentry_out s1 s2 H) as [(s1' & s2' & -> & -> & E & F1 & F2)|(w & ws & a1 & t1 & a2 & t2 & T & A1 & N1 & L1 & A2 & N2 & L2 & -> & ->)].
  - split; [reflexivity|]. apply twin_dead; assumption.
  - cbn [rest opened]. destruct (num_core A ext N w ws a1 t1 a2 t2 T A1 N1 L1 A2 N2 L2) as (v & fl & r1 & r2 & -> & -> & R1 & R2 & O).
    destruct r1 as [|y1 r1]; [congruence|]. destruct r2 as [|y2 r2]; [congruence|]. split; [reflexivity|]. cbn [at_end snd].
    destruct fl; [apply twin_dead; reflexivity|]. split; [reflexivity|]. split; [reflexivity|]. intros _. exact (O eq_refl).
Qed.

(** Quoted strings. *)
Lemma sentry_again : forall x b, is_ws x = false -> sentry (opened (x :: b)) = (true, opened (x :: b)).
Proof. intros x b H. unfold sentry, opened, good. cbn [eofb failb rest negb andb skip_ws]. rewrite H. reflexivity. Qed.

Lemma take_unquoted : forall w a t, unquoted w -> blank a -> a <> [] -> take_token (w ++ a ++ t) = (w, a ++ t).
Proof. intros w a t B A N. apply take_token_app; [apply unquoted_nows; exact B|apply starts_ws_app; assumption]. Qed.

Lemma rd_token_unquoted : forall old s w a t, sentry s = (true, opened (w ++ a ++ t)) -> unquoted w -> blank a -> a <> [] ->
  rd_token old s = (w, opened (a ++ t)).
Proof.
  intros old s w a t E B A N. unfold rd_token. rewrite E. cbn [rest opened]. rewrite (take_unquoted w a t B A N), at_end_sep by exact N. reflexivity.
Qed.

Lemma rd_quoted_unquoted : forall old s w a t, sentry s = (true, opened (w ++ a ++ t)) -> unquoted w -> blank a -> a <> [] ->
  rd_quoted old s = (w, opened (a ++ t)).
Proof.
  intros old s w a t E B A N. unfold rd_quoted. rewrite E. destruct w as [|x w]; [destruct (proj1 B); reflexivity|].
  pose proof (Forall_inv (proj2 B)) as (X & Y).
  rewrite (rd_token_unquoted old (opened ((x :: w) ++ a ++ t)) (x :: w) a t) by (assumption || apply sentry_again; exact X).
  cbn [rest opened app]. destruct x; try reflexivity. congruence.
Qed.

Lemma rd_quoted_name : forall old s n b, sentry s = (true, opened (in_quotes n ++ b)) -> rd_quoted old s = (n, opened b).
Proof.
  intros old s n b E. unfold rd_quoted. rewrite E, <- quoted_in. unfold quoted. cbn [rest opened app]. rewrite <- app_assoc. cbn [app].
  rewrite unquote_body. reflexivity.
Qed.

Lemma quoted_out : forall old s1 s2, twin outq s1 s2 -> agree outq (rd_quoted old s1) (rd_quoted old s2).
Proof.
  intros old s1 s2 H.
  destruct (sentry_out s1 s2 H) as [(s1' & s2' & E1 & E2 & E & F1 & F2)|(w & ws & a1 & t1 & a2 & t2 & T & A1 & N1 & L1 & A2 & N2 & L2 & E1 & E2)].
  - unfold rd_quoted. rewrite E1, E2. split; [reflexivity|]. apply twin_dead; assumption.
  - pose proof (proj1 T) as I. apply Forall_inv in I. pose proof (tidy_tl _ _ T) as T'. destruct I as [B|(n & -> & D)].
    + rewrite (rd_quoted_unquoted old s1 w a1 t1), (rd_quoted_unquoted old s2 w a2 t2) by assumption.
      split; [reflexivity|]. apply (twin_out ws); assumption.
    + rewrite (rd_quoted_name old s1 _ _ E1), (rd_quoted_name old s2 _ _ E2). split; [reflexivity|]. apply (twin_out ws); assumption.
Qed.

(** ** Words, also inside quoted strings *)

Lemma ws_split : forall w, Forall (fun b => is_ws b = false) w \/
  exists a y b, w = a ++ y :: b /\ Forall (fun b => is_ws b = false) a /\ is_ws y = true.
Proof.
  induction w as [|x w IH]; [left; constructor|]. destruct (is_ws x) eqn:E.
  - right. exists [], x, w. split; [reflexivity|]. split; [constructor|exact E].
  - destruct IH as [IH|(a & y & b & -> & A & Y)]; [left; constructor; assumption|].
    right. exists (x :: a), y, b. split; [reflexivity|]. split; [constructor; assumption|exact Y].
Qed.

(** A token taken from a quoted string or its end. *)
Lemma token_from : forall old q x w ws a1 t1 a2 t2 s1 s2, q = x :: w -> is_ws x = false ->
  (exists p, q = p ++ [x22] /\ ~ In x24 p) -> tidy ws ->
  blank a1 -> a1 <> [] -> laid_out ws t1 -> blank a2 -> a2 <> [] -> laid_out ws t2 ->
  sentry s1 = (true, opened (q ++ a1 ++ t1)) -> sentry s2 = (true, opened (q ++ a2 ++ t2)) ->
  agree anyq (rd_token old s1) (rd_token old s2) /\ (exists y l, fst (rd_token old s1) = y :: l /\ y = x).
Proof.
  intros old q x w ws a1 t1 a2 t2 s1 s2 Eq X (p & Ep & D) T A1 N1 L1 A2 N2 L2 E1 E2. unfold rd_token. rewrite E1, E2. cbn [rest opened].
  destruct (ws_split q) as [F|(a & y & b & E & F & Y)].
  - rewrite !take_token_app by (assumption || apply starts_ws_app; assumption). rewrite !at_end_sep by assumption.
    split; [split; [reflexivity|]|rewrite Eq; eexists _, _; split; reflexivity].
    apply (twin_mono outq); [intros; left; assumption|]. apply (twin_out ws); assumption.
  - assert (Q : forall c t, c <> [] -> take_token (q ++ c ++ t) = (a, (y :: b) ++ c ++ t)).
    { intros c t N. rewrite E, <- app_assoc. apply take_token_app; [exact F|exact Y]. }
    rewrite !Q by assumption. cbn [app at_end fst snd]. split.
    + split; [reflexivity|]. split; [reflexivity|]. split; [reflexivity|]. intros _. right.
      assert (G : exists p', y :: b = p' ++ [x22] /\ ~ In x24 p').
      { rewrite E in Ep. destruct (exists_last (l := y :: b) ltac:(discriminate)) as (p' & z & G). rewrite G in Ep.
        rewrite app_assoc in Ep. apply app_inj_tail in Ep. destruct Ep as (Ep & ->). exists p'. split; [exact G|]. intro I. apply D. rewrite <- Ep.
        apply in_or_app. right. exact I. }
      destruct G as (p' & G & D'). exists p', ws. split; [exact D'|]. split; [exact T|]. rewrite <- G.
      cbn [snd with_rest rest]. split; [apply (laid_cons (y :: b))|apply (laid_cons (y :: b))]; assumption.
    + destruct a as [|z a]; [cbn [app] in E; rewrite Eq in E; injection E as -> ->; congruence|].
      cbn [app] in E. rewrite Eq in E. injection E as -> ->. eexists _, _. split; reflexivity.
Qed.

Lemma escaped_no : forall n, ~ In x24 n -> ~ In x24 (flat_map (fun b => if Byte.eqb b x22 then [x5c; x22] else if Byte.eqb b x5c then [x5c; x5c] else [b]) n).
Proof.
  intros n H I. apply in_flat_map in I. destruct I as (b & Ib & I).
  destruct (Byte.eqb b x22); [destruct I as [I|[I|[]]]; discriminate|]. destruct (Byte.eqb b x5c); [destruct I as [I|[I|[]]]; discriminate|].
  destruct I as [->|[]]. contradiction.
Qed.

Lemma strip : forall p, exists u q x w, p ++ [x22] = u ++ q /\ blank u /\ q = x :: w /\ is_ws x = false /\
  exists p', q = p' ++ [x22] /\ forall b, In b p' -> In b p.
Proof.
  induction p as [|y p (u & q & x & w & E & U & Q & X & (p' & Q' & I))].
  - exists [], [x22], x22, []. split; [reflexivity|]. split; [constructor|]. split; [reflexivity|]. split; [reflexivity|]. exists []. split; [reflexivity|intros b []].
  - destruct (is_ws y) eqn:Y.
    + exists (y :: u), q, x, w. split; [cbn [app]; rewrite E; reflexivity|]. split; [constructor; assumption|]. split; [exact Q|]. split; [exact X|].
      exists p'. split; [exact Q'|]. intros b B. right. exact (I b B).
    + exists [], ((y :: p) ++ [x22]), y, (p ++ [x22]). split; [reflexivity|]. split; [constructor|]. split; [reflexivity|]. split; [exact Y|].
      exists (y :: p). auto.
Qed.

(** A word read by the main loop or by forward_to. *)
Lemma token_any : forall old s1 s2, twin anyq s1 s2 -> agree anyq (rd_token old s1) (rd_token old s2) /\
  (is_section (fst (rd_token old s1)) = true -> failb (snd (rd_token old s1)) = false ->
   exists ws, tidy (fst (rd_token old s1) :: ws) /\ twin (laid2 ws) (snd (rd_token old s1)) (snd (rd_token old s2))).
Proof.
  intros old s1 s2 H. destruct (failb s1) eqn:F1.
  { destruct H as (E & F & P). unfold rd_token, sentry, good. rewrite <- F, F1, !andb_false_r. split.
    - split; [reflexivity|]. apply twin_dead; [exact E|reflexivity|reflexivity].
    - cbn. discriminate. }
  destruct H as (E & F & P). destruct (P F1) as [O|(p & ws & D & T & L1 & L2)].
  - assert (H : twin outq s1 s2) by (split; [exact E|split; [congruence|auto]]).
    destruct (sentry_out s1 s2 H) as [(s1' & s2' & E1 & E2 & E' & F1' & F2')|(w & ws & a1 & t1 & a2 & t2 & T & A1 & N1 & L1 & A2 & N2 & L2 & E1 & E2)].
    + unfold rd_token. rewrite E1, E2. split; [split; [reflexivity|]; apply twin_dead; assumption|]. cbn [snd]. congruence.
    + pose proof (proj1 T) as I. apply Forall_inv in I. pose proof (tidy_tl _ _ T) as T'. destruct I as [B|(n & -> & D)].
      * rewrite (rd_token_unquoted old s1 w a1 t1), (rd_token_unquoted old s2 w a2 t2) by assumption. cbn [fst snd].
        split; [split; [reflexivity|]; apply (twin_mono outq); [intros; left; assumption|]; apply (twin_out ws); assumption|].
        intros _ _. exists ws. split; [exact T|]. split; [reflexivity|]. split; [reflexivity|]. intros _. split; apply typed_sep; assumption.
      * destruct (token_from old (in_quotes n) x22 _ ws a1 t1 a2 t2 s1 s2 eq_refl eq_refl) as (G & (y & l & G2 & ->)); try assumption.
        { exists (x22 :: flat_map (fun b => if Byte.eqb b x22 then [x5c; x22] else if Byte.eqb b x5c then [x5c; x5c] else [b]) n).
          split; [reflexivity|]. intros [X|X]; [discriminate|]. exact (escaped_no n D X). }
        split; [exact G|]. rewrite G2. discriminate.
  - inversion L1 as [|? a1 ? t1 A1 N1 M1 X1 Y1]; inversion L2 as [|? a2 ? t2 A2 N2 M2 X2 Y2]; subst.
    destruct (eofb s1) eqn:EE.
    { unfold rd_token, sentry, good. rewrite EE, <- E, F1, <- F. cbn [negb andb]. split.
      - split; [reflexivity|]. apply twin_dead; [exact (eq_trans EE (eq_sym (eq_sym E)))|reflexivity|reflexivity].
      - cbn. discriminate. }
    destruct (strip p) as (u & q & x & w & Ep & U & Q & X & (p' & Q' & I)). rewrite Ep in *.
    assert (G : forall s a t, rest s = (u ++ q) ++ a ++ t -> eofb s = false -> failb s = false -> sentry s = (true, opened (q ++ a ++ t))).
    { intros s a t R0 R1 R2. unfold sentry, good. rewrite R0, R1, R2, <- app_assoc, skip_ws_app by exact U. rewrite Q. cbn [app skip_ws negb andb].
      rewrite X. destruct s as [r e f]. cbn in *. subst. reflexivity. }
    destruct (token_from old q x w ws a1 t1 a2 t2 s1 s2 Q X) as (H1 & (y & l & H2 & ->)); try assumption.
    { exists p'. split; [exact Q'|]. intro J. apply D, I, J. }
    { apply G; [congruence|congruence|exact F1]. }
    { apply G; [congruence|congruence|congruence]. }
    split; [exact H1|]. rewrite H2. cbn [is_section]. intros H3 _. exfalso. rewrite Q in Q'. destruct p' as [|z p']; [injection Q' as -> _; discriminate|].
    injection Q' as -> _. apply D, I. left. destruct z; try discriminate. reflexivity.
Qed.

(** ** Sections *)

Definition osim {A} (P : bytes -> bytes -> Prop) (x y : outcome (A * istream)) : Prop :=
  match x, y with
  | Ok p, Ok q => agree P p q
  | Throw e, Throw e' => e = e'
  | Undef u, Undef u' => u = u'
  | Abort, Abort | Diverge, Diverge => True
  | _, _ => False
  end.
Definition sim {A} (m : M A) : Prop := forall s1 s2, twin outq s1 s2 -> osim outq (m s1) (m s2).

Lemma sim_bind : forall A B (m : M A) (f : A -> M B), sim m -> (forall a, sim (f a)) -> sim (bind m f).
Proof.
  intros A B m f H G s1 s2 T. specialize (H s1 s2 T). unfold bind. destruct (m s1) as [[a s1']| | | |], (m s2) as [[b s2']| | | |]; cbn [osim] in H; try contradiction; try exact H.
  destruct H as (E & T'). cbn [fst snd] in *. subst b. apply G. exact T'.
Qed.
Lemma sim_ret : forall A (a : A), sim (ret a).
Proof. intros A a s1 s2 T. split; [reflexivity|exact T]. Qed.
Lemma sim_lift : forall A (o : outcome A), sim (lift o).
Proof. intros A o s1 s2 T. unfold lift. destruct o; cbn [osim]; try reflexivity. split; [reflexivity|exact T]. Qed.
Lemma sim_throw : forall A e, sim (@throw A e).
Proof. intros A e s1 s2 T. reflexivity. Qed.
Lemma sim_undef : forall A u, sim (@undef A u).
Proof. intros A u s1 s2 T. reflexivity. Qed.
Lemma sim_use : forall A (o : option A), sim (use o).
Proof. intros A [a|]; [apply sim_ret|apply sim_undef]. Qed.
Lemma sim_massert : forall c b, sim (massert c b).
Proof.
  intros c b s1 s2 T. unfold massert. destruct (ndebug c); [split; [reflexivity|exact T]|]. destruct b; [split; [reflexivity|exact T]|exact I].
Qed.
Lemma sim_good : forall c, sim (assert_good c).
Proof.
  intros c s1 s2 T. unfold assert_good. destruct T as (E & F & P). assert (G : good s1 = good s2) by (unfold good; congruence). rewrite G.
  apply sim_massert. split; [exact E|split; [exact F|exact P]].
Qed.
Lemma sim_int : forall o, sim (op (rd_int o)).
Proof. intros o s1 s2 T. apply num_out; [exact int_near|exact T]. Qed.
Lemma sim_size : forall o, sim (op (rd_size o)).
Proof. intros o s1 s2 T. apply num_out; [exact size_near|exact T]. Qed.
Lemma sim_double : forall o, sim (op (rd_double o)).
Proof. intros o s1 s2 T. apply num_out; [exact double_near|exact T]. Qed.
Lemma sim_int_opt : forall o, sim (op (rd_int_opt o)).
Proof. intros o s1 s2 T. apply num_opt_out; [exact int_near|exact T]. Qed.
Lemma sim_size_opt : forall o, sim (op (rd_size_opt o)).
Proof. intros o s1 s2 T. apply num_opt_out; [exact size_near|exact T]. Qed.
Lemma sim_quoted : forall o, sim (op (rd_quoted o)).
Proof. intros o s1 s2 T. apply quoted_out. exact T. Qed.
Lemma sim_mapM : forall A B (f : A -> M B) l, (forall x, sim (f x)) -> sim (mapM f l).
Proof.
  intros A B f l H. induction l as [|x l IH]; cbn [mapM]; [apply sim_ret|].
  apply sim_bind; [apply H|]. intro y. apply sim_bind; [exact IH|]. intro. apply sim_ret.
Qed.
Lemma sim_iterM : forall S n (f : S -> M S) s, (forall x, sim (f x)) -> sim (iterM n f s).
Proof.
  intros S n f s H. revert s. induction n as [|n IH]; intro s; cbn [iterM]; [apply sim_ret|]. apply sim_bind; [apply H|exact IH].
Qed.
Lemma sim_fill : forall A cnt (f : A -> M A) v, (forall x, sim (f x)) -> sim (fill cnt f v).
Proof. intros A cnt f v H. unfold fill. destruct (cnt =? zlen v); [apply sim_mapM, H|apply sim_undef]. Qed.

Ltac sim1 :=
  match goal with
  | |- sim (op (rd_int _)) => apply sim_int
  | |- sim (op (rd_size _)) => apply sim_size
  | |- sim (op (rd_double _)) => apply sim_double
  | |- sim (op (rd_int_opt _)) => apply sim_int_opt
  | |- sim (op (rd_size_opt _)) => apply sim_size_opt
  | |- sim (op (rd_quoted _)) => apply sim_quoted
  | |- sim (ret _) => apply sim_ret
  | |- sim (lift _) => apply sim_lift
  | |- sim (throw _) => apply sim_throw
  | |- sim (undef _) => apply sim_undef
  | |- sim (use _) => apply sim_use
  | |- sim (massert _ _) => apply sim_massert
  | |- sim (assert_good _) => apply sim_good
  | |- sim (bind _ _) => apply sim_bind; [|intro]
  | |- sim (mapM _ _) => apply sim_mapM; intro
  | |- sim (iterM _ _ _) => apply sim_iterM; intro
  | |- sim (fill _ _ _) => apply sim_fill; intro
  | |- context [match ?x with _ => _ end] => destruct x
  | _ => progress cbv beta zeta
  end.
Ltac sim := repeat sim1; auto.

Section Sections.
Variable c : cfg.
Variable spec : MshSpec.
Hypothesis T0 : file_type (mesh_format spec) = 0.

Lemma sim_nodes : sim (load_nodes c spec).
Proof.
  unfold load_nodes. cbv zeta. rewrite T0. cbn [Z.eqb].
  match goal with |- context [v41_load_nodes_ascii c ?x] => generalize x end. intro n.
  unfold v41_load_nodes_ascii, v41_node_block_ascii, v22_load_nodes_ascii, v22_node_ascii. sim.
Qed.

Lemma sim_elements : sim (load_elements c spec).
Proof.
  unfold load_elements. cbv zeta. rewrite T0. cbn [Z.eqb].
  match goal with |- context [v41_load_elements_ascii c ?x] => generalize x end. intro n.
  unfold v41_load_elements_ascii, v41_element_block_ascii, v22_load_elements_ascii, v22_element_ascii. sim.
Qed.

Lemma sim_entities : sim (load_entities c spec).
Proof.
  unfold load_entities. rewrite T0. cbn [Z.eqb].
  unfold v41_load_entities_ascii, resize_entities, point_ascii, entity_ascii, ints_ascii. sim.
Qed.

Lemma sim_groups : sim (load_physical_groups c spec).
Proof. unfold load_physical_groups, load_group. sim. Qed.

Lemma sim_data : forall v e, sim (load_data c v false e).
Proof. intros v e. unfold load_data, load_data_header, entry_ascii. sim. Qed.

Lemma sim_curves : sim (load_curves c spec).
Proof. unfold load_curves, load_curve. rewrite T0. cbn [Z.eqb]. sim. Qed.

Lemma sim_patches : sim (load_patches c spec).
Proof. unfold load_patches, load_patch. rewrite T0. cbn [Z.eqb]. sim. Qed.

Lemma sim_dispatch : forall name, name <> str "$MeshFormat" -> name <> str "$NanoSplineFormat" -> sim (dispatch c name spec).
Proof.
  intros name N1 N2. apply bytes_eqb_neq in N1, N2. unfold dispatch. rewrite N1, N2.
  unfold load_node_data, load_element_data, load_element_node_data. rewrite T0. cbn [Z.ltb Z.compare].
  pose proof sim_nodes. pose proof sim_elements. pose proof sim_entities. pose proof sim_groups. pose proof sim_data.
  pose proof sim_curves. pose proof sim_patches.
  repeat match goal with |- context [if ?x then _ else _] => destruct x end; auto; sim.
Qed.
End Sections.

(** Only $MeshFormat changes the header. *)
Definition keeps (f : MeshFormat) (m : M MshSpec) : Prop := forall s r s', m s = Ok (r, s') -> mesh_format r = f.

Lemma keeps_bind : forall A f (m : M A) g, (forall a, keeps f (g a)) -> keeps f (bind m g).
Proof.
  intros A f m g H s r s' E. unfold bind in E. destruct (m s) as [[a s1]| | | |]; try discriminate. exact (H a s1 r s' E).
Qed.
Lemma keeps_ret : forall f x, mesh_format x = f -> keeps f (ret x).
Proof. intros f x H s r s' E. injection E as <- <-. exact H. Qed.
Lemma keeps_throw : forall f e, keeps f (throw e).
Proof. intros f e s r s' E. discriminate. Qed.

Lemma dispatch_keeps : forall c name spec, name <> str "$MeshFormat" -> keeps (mesh_format spec) (dispatch c name spec).
Proof.
  intros c name spec N. apply bytes_eqb_neq in N. unfold dispatch. rewrite N.
  unfold load_entities, load_physical_groups, load_nodes, load_elements, load_node_data, load_element_data, load_element_node_data,
    load_nanospline_format, load_curves, load_patches. cbv zeta.
  repeat match goal with
  | |- keeps _ (bind _ _) => apply keeps_bind; intro
  | |- keeps _ (ret _) => apply keeps_ret; reflexivity
  | |- keeps _ (throw _) => apply keeps_throw
  | |- keeps _ (if ?b then _ else _) => destruct b
  end.
Qed.

Lemma token_laid : forall old ws s1 s2, tidy ws -> twin (laid2 ws) s1 s2 ->
  agree anyq (rd_token old s1) (rd_token old s2).
Proof.
  intros old ws s1 s2 T H. apply token_any. eapply twin_mono; [|exact H]. intros a b L. left. exists ws. split; assumption.
Qed.

Lemma osim_bind : forall A B P Q (m : M A) (f : A -> M B) s1 s2, osim P (m s1) (m s2) ->
  (forall a s1' s2', m s1 = Ok (a, s1') -> twin P s1' s2' -> osim Q (f a s1') (f a s2')) -> osim Q (bind m f s1) (bind m f s2).
Proof.
  intros A B P Q m f s1 s2 H G. unfold bind. destruct (m s1) as [[a s1']| | | |], (m s2) as [[b s2']| | | |]; cbn [osim] in H; try contradiction; try exact H.
  destruct H as (E & T'). cbn [fst snd] in *. subst b. apply G; [reflexivity|exact T'].
Qed.

Lemma osim_mono : forall A (P Q : bytes -> bytes -> Prop) (x y : outcome (A * istream)), (forall a b, P a b -> Q a b) -> osim P x y -> osim Q x y.
Proof.
  intros A P Q x y H G. destruct x, y; cbn [osim] in *; try exact G. destruct G as (E & T). split; [exact E|]. eapply twin_mono; eassumption.
Qed.

Lemma out_any : forall a b, outq a b -> anyq a b.
Proof. intros a b H. left. exact H. Qed.

(** The header: text again. *)
Definition fmt_rest (spec : MshSpec) (v : bytes) (ft : Z) : M MshSpec :=
  ds <- op (rd_int (data_size (mesh_format spec))) ;;
  if bytes_eqb v v41s && negb (to_size ds =? 8) then throw (data_size_unsupported ds) else
  (if negb (ft =? 0) then
     op eat_all ;;
     one <- op (rd_raw_int 0) ;;
     if negb (one =? 1) then throw (endianness_unsupported v) else ret tt
   else ret tt) ;;
  ret (set_format {| version := v; file_type := ft; data_size := ds |} spec).

Lemma bind_op_eq : forall A B (f : istream -> A * istream) (g : A -> M B) s, bind (op f) g s = g (fst (f s)) (snd (f s)).
Proof. intros A B f g s. unfold bind, op. destruct (f s). reflexivity. Qed.

Lemma fmt_rest_text : forall spec v, sim (fmt_rest spec v 0) /\
  forall s r s', fmt_rest spec v 0 s = Ok (r, s') -> file_type (mesh_format r) = 0.
Proof.
  intros spec v. unfold fmt_rest. cbn [Z.eqb negb]. split; [sim|]. intros s r s'. rewrite bind_op_eq.
  destruct (_ && _)%bool; [discriminate|]. intro X. injection X as <- <-. reflexivity.
Qed.

Lemma known_version : forall v, negb (bytes_eqb v v22s) && negb (bytes_eqb v v41s) = false -> exists x l, v = x :: l /\ x <> x22.
Proof.
  intros v H. apply andb_false_iff in H. destruct H as [H|H]; apply negb_false_iff, bytes_eqb_eq in H; subst v; eexists _, _; (split; [reflexivity|discriminate]).
Qed.

Lemma header_sim : forall ws spec s1 s2, tidy (str "$MeshFormat" :: ws) -> twin (laid2 ws) s1 s2 -> file_type (mesh_format spec) = 0 ->
  osim outq (load_mesh_format spec s1) (load_mesh_format spec s2) /\
  (forall r s', load_mesh_format spec s1 = Ok (r, s') -> file_type (mesh_format r) = 0).
Proof.
  intros ws spec s1 s2 T H Z0. pose proof (tidy_tl _ _ T) as T'.
  assert (D : forall s, load_mesh_format spec s = let (v, s') := rd_token (version (mesh_format spec)) s in
    if negb (bytes_eqb v v22s) && negb (bytes_eqb v v41s) then Throw (version_unsupported v) else
    let (ft, s'') := rd_int 0 s' in fmt_rest spec v ft s'').
  { intro s. unfold load_mesh_format. cbv zeta. rewrite bind_op_eq. destruct (rd_token _ s) as [v s']. cbn [fst snd].
    destruct (_ && _)%bool; [reflexivity|]. rewrite bind_op_eq, Z0. destruct (rd_int 0 s'). reflexivity. }
  rewrite !D.
  assert (G : forall v b1 b2, twin outq b1 b2 -> fst (rd_int 0 b1) = 0 ->
    osim outq (let (ft, s'') := rd_int 0 b1 in fmt_rest spec v ft s'') (let (ft, s'') := rd_int 0 b2 in fmt_rest spec v ft s'') /\
    (forall r s', (let (ft, s'') := rd_int 0 b1 in fmt_rest spec v ft s'') = Ok (r, s') -> file_type (mesh_format r) = 0)).
  { intros v b1 b2 Tb R. pose proof (num_out _ extract_int 0 b1 b2 int_near Tb) as (E & Tc). fold rd_int in E, Tc.
    destruct (rd_int 0 b1) as [x d1], (rd_int 0 b2) as [y d2]. cbn [fst snd] in *. subst x y. destruct (fmt_rest_text spec v) as (S1 & S2).
    split; [apply S1; exact Tc|apply S2]. }
  clear D.
  destruct (sentry_laid ws s1 s2 T' H) as [(s1' & s2' & E1 & E2 & E & F1 & F2)|(v & ws' & a1 & t1 & a2 & t2 & -> & A1 & N1 & L1 & A2 & N2 & L2 & E1 & E2)].
  - unfold rd_token. rewrite E1, E2. destruct (_ && _)%bool; [split; [reflexivity|discriminate]|]. apply G; [apply twin_dead; assumption|].
    unfold rd_int, rd_num, sentry, good. rewrite F1, andb_false_r. reflexivity.
  - pose proof (proj1 T') as I. apply Forall_inv in I. destruct I as [B|(n & -> & N)].
    + rewrite (rd_token_unquoted _ s1 v a1 t1), (rd_token_unquoted _ s2 v a2 t2) by assumption.
      destruct (_ && _)%bool; [split; [reflexivity|discriminate]|]. apply G; [apply (twin_out ws'); try assumption; exact (tidy_tl _ _ T')|].
      destruct ws' as [|w ws'].
      * inversion L1; subst. unfold rd_int, rd_num, sentry, good. cbn [eofb failb opened negb andb rest]. rewrite app_nil_r.
        rewrite <- (app_nil_r a1), skip_ws_app by exact A1. reflexivity.
      * inversion L1 as [|? sep ? t' B1 B2 L' X Y]; subst. destruct sep as [|y sep]; [congruence|].
        cbn [app]. rewrite (int_word_text 0 w 0 a1 y (sep ++ t')); [reflexivity| |exact A1|exact (Forall_inv B1)].
        apply (proj2 T [] [] v w ws'). reflexivity.
    + assert (Q : fst (rd_token (version (mesh_format spec)) s1) = fst (rd_token (version (mesh_format spec)) s2) /\
                  exists l, fst (rd_token (version (mesh_format spec)) s1) = x22 :: l).
      { destruct (token_from (version (mesh_format spec)) (in_quotes n) x22 _ ws' a1 t1 a2 t2 s1 s2 eq_refl eq_refl) as (Q & (y & l & Q2 & ->)); try assumption.
        { exists (x22 :: flat_map (fun b => if Byte.eqb b x22 then [x5c; x22] else if Byte.eqb b x5c then [x5c; x5c] else [b]) n).
          split; [reflexivity|]. intros [X|X]; [discriminate|]. exact (escaped_no n N X). }
        { exact (tidy_tl _ _ T'). }
        split; [apply Q|]. exists l. exact Q2. }
      destruct (rd_token _ s1) as [v1 b1], (rd_token _ s2) as [v2 b2]. cbn [fst] in Q. destruct Q as (<- & l & ->).
      destruct (_ && _)%bool eqn:K; [split; [reflexivity|discriminate]|].
      destruct (known_version _ K) as (x & l' & X & NX). injection X as X _. congruence.
Qed.

Lemma dispatch_sim : forall c name ws spec s1 s2, tidy (name :: ws) -> twin (laid2 ws) s1 s2 -> file_type (mesh_format spec) = 0 ->
  osim anyq (dispatch c name spec s1) (dispatch c name spec s2) /\
  (forall r s', dispatch c name spec s1 = Ok (r, s') -> file_type (mesh_format r) = 0).
Proof.
  intros c name ws spec s1 s2 T H Z0. pose proof (tidy_tl _ _ T) as T'.
  destruct (bytes_eqb name (str "$MeshFormat")) eqn:E1.
  - apply bytes_eqb_eq in E1. subst name. change (dispatch c (str "$MeshFormat") spec) with (load_mesh_format spec).
    destruct (header_sim ws spec s1 s2 T H Z0) as (A & B). split; [exact (osim_mono _ _ _ _ _ out_any A)|exact B].
  - apply bytes_eqb_neq in E1. split; [|intros r s' X; rewrite (dispatch_keeps c name spec E1 s1 r s' X); exact Z0].
    destruct (bytes_eqb name (str "$NanoSplineFormat")) eqn:E2.
    + apply bytes_eqb_eq in E2. subst name. change (dispatch c (str "$NanoSplineFormat") spec) with (load_nanospline_format spec).
      unfold load_nanospline_format. rewrite !bind_op_eq. destruct (token_laid (ns_version spec) ws s1 s2 T' H) as (A & B). rewrite A.
      split; [reflexivity|exact B].
    + apply bytes_eqb_neq in E2. apply (osim_mono _ outq _ _ _ out_any). apply sim_dispatch; try assumption.
      eapply twin_mono; [|exact H]. intros a b L. exists ws. split; assumption.
Qed.

(** ** The loops *)

Lemma forward_sim : forall f flag buf s1 s2, twin anyq s1 s2 -> osim anyq (forward_loop f flag buf s1) (forward_loop f flag buf s2).
Proof.
  induction f as [|f IH]; intros flag buf s1 s2 H; cbn [forward_loop]; [exact I|]. rewrite <- (proj1 H).
  destruct (eofb s1 || bytes_eqb buf flag); [split; [reflexivity|exact H]|].
  destruct (token_any buf s1 s2 H) as ((A & B) & _). destruct (rd_token buf s1) as [b1 r1], (rd_token buf s2) as [b2 r2]. cbn [fst snd] in *. subst b2.
  apply IH. exact B.
Qed.

Lemma forward_fuel : forall f flag s, (List.length (rest s) + 2 <= f)%nat -> forward_to flag s = forward_loop f flag [] s.
Proof.
  intros f flag s L. unfold forward_to.
  destruct (forward_enough (S (S (List.length (rest s)))) flag [] s ltac:(lia)) as [(s' & E & _)|(fl & bu & s' & _ & _ & D & _)].
  - rewrite E. symmetry. apply (forward_ok_mono _ _ _ _ _ E). lia.
  - rewrite !D. reflexivity.
Qed.

Lemma forward_to_sim : forall flag s1 s2, twin anyq s1 s2 -> osim anyq (forward_to flag s1) (forward_to flag s2).
Proof.
  intros flag s1 s2 H. rewrite (forward_fuel (List.length (rest s1) + List.length (rest s2) + 2) flag s1) by lia.
  rewrite (forward_fuel (List.length (rest s1) + List.length (rest s2) + 2) flag s2) by lia. apply forward_sim. exact H.
Qed.

Lemma step_sim : forall c spec s1 s2, twin anyq s1 s2 -> file_type (mesh_format spec) = 0 ->
  osim anyq (load_step c spec s1) (load_step c spec s2) /\
  (forall r s', load_step c spec s1 = Ok (r, s') -> file_type (mesh_format r) = 0).
Proof.
  intros c spec s1 s2 H Z0. unfold load_step. destruct (token_any [] s1 s2 H) as ((A & B) & C).
  assert (F : failb (snd (rd_token [] s1)) = true -> is_section (fst (rd_token [] s1)) = false).
  { unfold rd_token. destruct (sentry s1) as [ok t] eqn:Es. destruct ok; [|reflexivity]. intro X. exfalso.
    unfold sentry in Es. destruct (good s1) eqn:G; [|discriminate]. unfold good in G. apply andb_true_iff in G. destruct G as (_ & G). apply negb_true_iff in G.
    destruct (skip_ws (rest s1)) as [|z zs]; [discriminate|]. injection Es as <-. destruct (take_token _) as [tk r]. cbn [snd] in X.
    destruct r; cbn [at_end set_eof with_rest failb] in X; congruence. }
  destruct (rd_token [] s1) as [b1 r1], (rd_token [] s2) as [b2 r2]. cbn [fst snd] in *. subst b2.
  destruct (is_section b1) eqn:IS; cbn [negb].
  2:{ split; [split; [reflexivity|exact B]|]. intros r s' X. injection X as <- <-. exact Z0. }
  destruct (C eq_refl) as (ws & T & L); [destruct (failb r1); [discriminate (F eq_refl)|reflexivity]|].
  destruct (dispatch_sim c b1 ws spec r1 r2 T L Z0) as (D1 & D2). split.
  - apply (osim_bind _ _ anyq); [exact D1|]. intros a q1 q2 _ Tq. apply (osim_bind _ _ anyq); [apply forward_to_sim; exact Tq|].
    intros u p1 p2 _ Tp. split; [reflexivity|exact Tp].
  - intros r s' X. unfold bind in X. destruct (dispatch c b1 spec r1) as [[sp q]| | | |]; try discriminate.
    destruct (forward_to _ q) as [[[] q']| | | |]; try discriminate. injection X as <- <-. exact (D2 sp q eq_refl).
Qed.

Lemma loop_sim : forall c f spec s1 s2, twin anyq s1 s2 -> file_type (mesh_format spec) = 0 ->
  osim anyq (load_loop f c spec s1) (load_loop f c spec s2).
Proof.
  intros c f. induction f as [|f IH]; intros spec s1 s2 H Z0; cbn [load_loop]; [exact I|]. rewrite <- (proj1 H).
  destruct (eofb s1); [split; [reflexivity|exact H]|]. destruct (step_sim c spec s1 s2 H Z0) as (A & B).
  destruct (load_step c spec s1) as [[a q1]| | | |], (load_step c spec s2) as [[b q2]| | | |]; cbn [osim] in A; try contradiction; try exact A.
  destruct A as (E & T). cbn [fst snd obind] in *. subst b. apply IH; [exact T|]. exact (B a q1 eq_refl).
Qed.

Lemma load_fuel : forall f c b, (List.length b + 2 <= f)%nat -> load_msh c b = load_msh_fuel f c b.
Proof.
  intros f c b L. unfold load_msh, load_msh_fuel.
  destruct (load_enough (S (S (List.length b))) c spec_default (opened b)) as [N|(p & n & _ & _ & D)].
  - cbn [opened rest]. lia.
  - rewrite (load_ok_mono _ _ _ _ _ eq_refl N f) by lia. reflexivity.
  - rewrite !D. reflexivity.
Qed.

Theorem respaced_loads : forall c b b', respaced b b' -> load_msh c b = load_msh c b'.
Proof.
  intros c b b' (ws & T & L1 & L2). rewrite (load_fuel (List.length b + List.length b' + 2) c b), (load_fuel (List.length b + List.length b' + 2) c b') by lia.
  unfold load_msh_fuel. assert (H : twin anyq (opened b) (opened b')).
  { split; [reflexivity|]. split; [reflexivity|]. intros _. left. exists ws. split; [exact T|split; assumption]. }
  pose proof (loop_sim c (List.length b + List.length b' + 2) spec_default _ _ H eq_refl) as S.
  destruct (load_loop _ c spec_default (opened b)) as [[a q1]| | | |], (load_loop _ c spec_default (opened b')) as [[a' q2]| | | |];
    cbn [osim] in S; try contradiction; try (rewrite S); try reflexivity.
  destruct S as (E & _). cbn [fst] in E. subst. reflexivity.
Qed.
