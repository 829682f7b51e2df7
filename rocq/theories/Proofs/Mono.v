(** Every loader only moves forward in the stream and never revives a stream
    that is not good. *)

From Verif Require Import Model.Save Proofs.BytesP Proofs.RtBase.

(** One computation step from stream [s] to [s']. *)
Definition adv (s s' : istream) : Prop :=
  (List.length (rest s') <= List.length (rest s))%nat /\
  (good s = false -> eofb s' = eofb s /\ rest s' = rest s) /\
  (failb s = true -> s' = s).

Lemma adv_refl : forall s, adv s s.
Proof. intro s. repeat split; auto. Qed.

Lemma adv_eof : forall s s', adv s s' -> eofb s = true -> eofb s' = true.
Proof.
  intros s s' (_ & H & _) E. destruct H as [-> _]; [|exact E].
  unfold good. rewrite E. reflexivity.
Qed.

Lemma adv_good : forall s s', adv s s' -> good s = false -> good s' = false.
Proof.
  intros s s' A G. destruct (eofb s) eqn:E.
  - unfold good. rewrite (adv_eof _ _ A E). reflexivity.
  - unfold good in G. rewrite E in G. cbn in G. destruct (failb s) eqn:F; [|discriminate].
    destruct A as (_ & _ & A). rewrite A by exact F. unfold good. rewrite F. apply andb_false_r.
Qed.

Lemma adv_trans : forall s1 s2 s3, adv s1 s2 -> adv s2 s3 -> adv s1 s3.
Proof.
  intros s1 s2 s3 A1 A2. pose proof (adv_good _ _ A1) as G.
  destruct A1 as (L1 & G1 & F1), A2 as (L2 & G2 & F2).
  split; [lia|]. split.
  - intro H. destruct (G1 H) as [E1 R1]. destruct (G2 (G H)) as [E2 R2]. split; congruence.
  - intro H. pose proof (F1 H). subst s2. auto.
Qed.

Definition mono {A} (m : M A) : Prop := forall s a s', m s = Ok (a, s') -> adv s s'.

Lemma mono_bind : forall A B (m : M A) (f : A -> M B),
  mono m -> (forall a, mono (f a)) -> mono (bind m f).
Proof.
  intros A B m f Hm Hf s b s' H. unfold bind in H.
  destruct (m s) as [[a s1]|e|u| |] eqn:E; try discriminate.
  eapply adv_trans; [eapply Hm; exact E|eapply Hf; exact H].
Qed.

Lemma mono_ret : forall A (a : A), mono (ret a).
Proof. intros A a s b s' H. injection H as -> ->. apply adv_refl. Qed.

Lemma mono_throw : forall A e, mono (@throw A e).
Proof. intros A e s a s' H. discriminate. Qed.

Lemma mono_undef : forall A u, mono (@undef A u).
Proof. intros A u s a s' H. discriminate. Qed.

Lemma mono_lift : forall A (o : outcome A), mono (lift o).
Proof. intros A o s a s' H. destruct o; try discriminate. injection H as -> ->. apply adv_refl. Qed.

Lemma mono_use : forall A (o : option A), mono (use o).
Proof. intros A [a|]; [apply mono_ret|apply mono_undef]. Qed.

Lemma mono_massert : forall c b, mono (massert c b).
Proof.
  intros c b s a s' H. unfold massert in H.
  destruct (ndebug c), b; try discriminate; injection H as _ <-; apply adv_refl.
Qed.

Lemma mono_assert_good : forall c, mono (assert_good c).
Proof. intros c s a s' H. eapply mono_massert. exact H. Qed.

Lemma mono_mapM : forall A B (f : A -> M B) l, (forall x, mono (f x)) -> mono (mapM f l).
Proof.
  intros A B f l H. induction l as [|x l IH]; cbn [mapM]; [apply mono_ret|].
  apply mono_bind; [apply H|]. intro y. apply mono_bind; [exact IH|]. intro. apply mono_ret.
Qed.

Lemma mono_iterM : forall S n (f : S -> M S), (forall s, mono (f s)) -> forall s, mono (iterM n f s).
Proof.
  intros S n f H. induction n as [|n IH]; intro s; cbn [iterM]; [apply mono_ret|].
  apply mono_bind; [apply H|exact IH].
Qed.

Lemma mono_fill : forall A cnt (f : A -> M A) v, (forall x, mono (f x)) -> mono (fill cnt f v).
Proof.
  intros A cnt f v H. unfold fill. destruct (cnt =? zlen v); [apply mono_mapM; exact H|apply mono_undef].
Qed.

Lemma mono_op : forall A (f : istream -> A * istream), (forall s, adv s (snd (f s))) -> mono (op f).
Proof.
  intros A f H s a s' E. unfold op in E. injection E as E. specialize (H s). rewrite E in H. exact H.
Qed.

(** ** Stream operations *)

Lemma skip_ws_length : forall b, (List.length (skip_ws b) <= List.length b)%nat.
Proof.
  induction b as [|c b IH]; [auto|]. cbn [skip_ws]. destruct (is_ws c); cbn [List.length] in *; lia.
Qed.

Lemma good_flags : forall s, good s = true -> eofb s = false /\ failb s = false.
Proof. intros s. unfold good. destruct (eofb s), (failb s); cbn; intuition. Qed.

(** What the sentries do. *)
Lemma sentry_cases : forall s,
  (good s = true /\ skip_ws (rest s) <> [] /\ sentry s = (true, with_rest (skip_ws (rest s)) s)) \/
  (good s = true /\ skip_ws (rest s) = [] /\
   sentry s = (false, {| rest := []; eofb := true; failb := true |})) \/
  (good s = false /\ sentry s = (false, set_fail s)).
Proof.
  intro s. unfold sentry. destruct (good s); [|right; right; auto].
  destruct (skip_ws (rest s)) eqn:E; [right; left; auto|left]. repeat split; auto. discriminate.
Qed.

Lemma set_fail_failed : forall s, failb s = true -> set_fail s = s.
Proof. intros [r e f] H. cbn in *. subst. reflexivity. Qed.

Lemma adv_set_fail : forall s, adv s (set_fail s).
Proof. intro s. split; [auto|]. split; [auto|]. apply set_fail_failed. Qed.

Lemma adv_ended : forall s f, good s = true -> adv s {| rest := []; eofb := true; failb := f |}.
Proof.
  intros s f G. split; [cbn; lia|]. split; [congruence|].
  intro F. apply good_flags in G. intuition congruence.
Qed.

Lemma adv_rest : forall s b e f, good s = true ->
  (List.length b <= List.length (rest s))%nat -> adv s {| rest := b; eofb := e; failb := f |}.
Proof.
  intros s b e f G L. split; [exact L|]. split; [congruence|].
  intro F. apply good_flags in G. intuition congruence.
Qed.

Lemma take_token_length : forall b t r, take_token b = (t, r) ->
  List.length b = (List.length t + List.length r)%nat.
Proof.
  induction b as [|c b IH]; intros t r H; cbn [take_token] in H.
  - injection H as <- <-. reflexivity.
  - destruct (is_ws c); [injection H as <- <-; reflexivity|].
    destruct (take_token b) as [t' r']. injection H as <- <-.
    cbn [List.length]. rewrite (IH t' r' eq_refl). reflexivity.
Qed.

Lemma at_end_rest : forall b s, exists e, at_end b s = {| rest := b; eofb := e; failb := failb s |}.
Proof. intros [|c b] s; eexists; reflexivity. Qed.

Lemma adv_rd_token : forall old s, adv s (snd (rd_token old s)).
Proof.
  intros old s. unfold rd_token.
  destruct (sentry_cases s) as [(G & N & ->)|[(G & N & ->)|(G & ->)]].
  - cbn [with_rest IStream.rest]. destruct (take_token (skip_ws (rest s))) as [t r] eqn:E.
    cbn [snd]. destruct (at_end_rest r (with_rest (skip_ws (rest s)) s)) as (e & ->).
    apply adv_rest; [exact G|]. apply take_token_length in E. pose proof (skip_ws_length (rest s)). lia.
  - cbn [snd]. apply adv_ended. exact G.
  - cbn [snd]. apply adv_set_fail.
Qed.

(** A good stream yields a non-empty token and shrinks, or ends. *)
Lemma rd_token_progress : forall old s, good s = true ->
  eofb (snd (rd_token old s)) = true \/
  (List.length (rest (snd (rd_token old s))) < List.length (rest s))%nat.
Proof.
  intros old s G. unfold rd_token.
  destruct (sentry_cases s) as [(_ & N & ->)|[(_ & N & ->)|(G' & ->)]]; [| |congruence].
  - right. cbn [with_rest IStream.rest]. destruct (take_token (skip_ws (rest s))) as [t r] eqn:E.
    cbn [snd]. destruct (at_end_rest r (with_rest (skip_ws (rest s)) s)) as (e & ->). cbn [IStream.rest].
    pose proof (take_token_length _ _ _ E). pose proof (skip_ws_length (rest s)).
    destruct t as [|c t]; [|cbn [List.length] in *; lia].
    destruct (skip_ws (rest s)) as [|c b] eqn:EB; [congruence|].
    exfalso. cbn [take_token] in E.
    assert (W : is_ws c = false).
    { clear - EB. induction (rest s) as [|x l IH]; cbn [skip_ws] in EB; [discriminate|].
      destruct (is_ws x) eqn:W; [auto|]. injection EB as -> ->. exact W. }
    rewrite W in E. destruct (take_token b). discriminate.
  - left. reflexivity.
Qed.

Lemma rd_token_bad : forall old s, good s = false -> rd_token old s = (old, set_fail s).
Proof.
  intros old s G. unfold rd_token.
  destruct (sentry_cases s) as [(G' & _)|[(G' & _)|(_ & ->)]]; congruence.
Qed.

Definition shrinks {A} (ext : bytes -> A * bool * bytes) : Prop :=
  forall b, (List.length (snd (ext b)) <= List.length b)%nat.

Lemma adv_rd_num : forall A (ext : bytes -> A * bool * bytes) old s, shrinks ext ->
  adv s (snd (rd_num ext old s)).
Proof.
  intros A ext old s H. unfold rd_num.
  destruct (sentry_cases s) as [(G & N & ->)|[(G & N & ->)|(G & ->)]].
  - cbn [with_rest IStream.rest]. destruct (ext (skip_ws (rest s))) as [[v fl] r] eqn:E.
    cbn [snd]. destruct (at_end_rest r (with_rest (skip_ws (rest s)) s)) as (e & ->).
    assert (L : (List.length r <= List.length (rest s))%nat).
    { specialize (H (skip_ws (rest s))). rewrite E in H. cbn [snd] in H.
      pose proof (skip_ws_length (rest s)). lia. }
    destruct fl; apply adv_rest; auto.
  - cbn [snd]. apply adv_ended. exact G.
  - cbn [snd]. apply adv_set_fail.
Qed.

Lemma adv_rd_num_opt : forall A (ext : bytes -> A * bool * bytes) old s, shrinks ext ->
  adv s (snd (rd_num_opt ext old s)).
Proof.
  intros A ext old s H. unfold rd_num_opt.
  destruct (sentry_cases s) as [(G & N & ->)|[(G & N & ->)|(G & ->)]].
  - cbn [with_rest IStream.rest]. destruct (ext (skip_ws (rest s))) as [[v fl] r] eqn:E.
    cbn [snd]. destruct (at_end_rest r (with_rest (skip_ws (rest s)) s)) as (e & ->).
    assert (L : (List.length r <= List.length (rest s))%nat).
    { specialize (H (skip_ws (rest s))). rewrite E in H. cbn [snd] in H.
      pose proof (skip_ws_length (rest s)). lia. }
    destruct fl; apply adv_rest; auto.
  - cbn [snd]. apply adv_ended. exact G.
  - cbn [snd]. apply adv_set_fail.
Qed.

Lemma take_digits_length : forall b, (List.length (snd (take_digits b)) <= List.length b)%nat.
Proof.
  induction b as [|c b IH]; [auto|]. cbn [take_digits]. destruct (digit_of c); [|auto].
  destruct (take_digits b). cbn [snd List.length] in *. lia.
Qed.

Lemma take_sign_length : forall b, (List.length (snd (take_sign b)) <= List.length b)%nat.
Proof.
  destruct b as [|c b]; [auto|]. unfold take_sign. destruct c; cbn [snd List.length]; lia.
Qed.

Lemma shrinks_int : shrinks extract_int.
Proof.
  intro b. unfold extract_int. pose proof (take_sign_length b). destruct (take_sign b) as [n b1].
  pose proof (take_digits_length b1). destruct (take_digits b1) as [ds b2]. cbn [snd] in *.
  destruct ds; [cbn [snd]; lia|].
  repeat match goal with |- context [if ?x then _ else _] => destruct x end; cbn [snd]; lia.
Qed.

Lemma shrinks_size : shrinks extract_size.
Proof.
  intro b. unfold extract_size. pose proof (take_sign_length b). destruct (take_sign b) as [n b1].
  pose proof (take_digits_length b1). destruct (take_digits b1) as [ds b2]. cbn [snd] in *.
  destruct ds; [cbn [snd]; lia|].
  repeat match goal with |- context [if ?x then _ else _] => destruct x end; cbn [snd]; lia.
Qed.

Lemma scan_float_length : forall n b fm fd fs, (List.length b <= n)%nat ->
  (List.length (snd (scan_float fm fd fs b)) <= List.length b)%nat.
Proof.
  induction n as [|n IH]; intros b fm fd fs L.
  - destruct b; [auto|cbn in L; lia].
  - destruct b as [|c b]; [auto|]. cbn [List.length] in L. cbn [scan_float].
    assert (Q : forall fm fd fs b', (List.length b' <= List.length b)%nat -> forall (g : bytes -> bytes),
      (List.length (snd (let (t, r) := scan_float fm fd fs b' in (g t, r))) <= List.length (c :: b))%nat).
    { intros fm' fd' fs' b' L' g. specialize (IH b' fm' fd' fs' ltac:(lia)).
      destruct (scan_float fm' fd' fs' b'). cbn [snd List.length] in *. lia. }
    destruct (is_digit c); [apply (Q _ _ _ b (le_n _) (fun t => c :: t))|].
    destruct (Byte.eqb c x2e && negb fd && negb fs); [apply (Q _ _ _ b (le_n _) (fun t => c :: t))|].
    destruct ((Byte.eqb c x65 || Byte.eqb c x45) && negb fs && fm); [|auto].
    destruct b as [|c' b]; [apply (Q _ _ _ [] (le_n _) (fun t => x65 :: t))|].
    destruct c';
      first [ apply (Q fm fd true (_ :: b) (le_n _) (fun t => x65 :: t))
            | apply (Q fm fd true b (le_S _ _ (le_n _)) (fun t => x65 :: _ :: t)) ].
Qed.

Lemma shrinks_double : shrinks extract_double.
Proof.
  intro b. unfold extract_double. pose proof (take_sign_length b). destruct (take_sign b) as [n b1].
  pose proof (scan_float_length _ b1 false false false (le_n _)).
  destruct (scan_float false false false b1) as [t b2]. cbn [snd] in *.
  destruct (parse_dec t) as [[m e]|]; [|cbn [snd]; lia].
  destruct (inf_mag <=? round_dec m e); cbn [snd]; lia.
Qed.

Lemma unquote_length : forall n b t r, (List.length b <= n)%nat -> unquote b = (t, Some r) ->
  (List.length r <= List.length b)%nat.
Proof.
  induction n as [|n IH]; intros b t r L H.
  - destruct b; [discriminate|cbn in L; lia].
  - destruct b as [|c b]; [discriminate|]. cbn [List.length] in *.
    assert (Q : forall t0 (o : option bytes) c0, unquote b = (t0, o) -> (c0 :: t0, o) = (t, Some r) ->
              (List.length r <= S (List.length b))%nat).
    { intros t0 o c0 E E'. injection E' as _ ->. apply IH in E; lia. }
    destruct c; cbn [unquote] in H;
      try (destruct (unquote b) as [t0 o] eqn:E; eapply Q; [reflexivity|exact H]).
    + injection H as _ <-. lia.
    + destruct b as [|c b]; [discriminate|]. destruct (unquote b) as [t0 o] eqn:E.
      injection H as _ ->. cbn [List.length] in *. apply IH in E; lia.
Qed.

Lemma adv_rd_quoted : forall old s, adv s (snd (rd_quoted old s)).
Proof.
  intros old s. unfold rd_quoted.
  destruct (sentry_cases s) as [(G & N & ->)|[(G & N & ->)|(G & ->)]].
  - set (s1 := with_rest (skip_ws (rest s)) s).
    assert (A : adv s s1).
    { unfold s1, with_rest. apply adv_rest; [exact G|apply skip_ws_length]. }
    assert (G1 : good s1 = true) by exact G.
    destruct (rest s1) as [|c b] eqn:E.
    + eapply adv_trans; [exact A|apply adv_rd_token].
    + assert (Hq : forall x, x = match unquote b with
        | (t, Some r) => (t, with_rest r s1)
        | (t, None) => (t, {| rest := []; eofb := true; failb := true |}) end -> adv s (snd x)).
      { intros x ->. eapply adv_trans; [exact A|]. destruct (unquote b) as [t [r|]] eqn:EU; cbn [snd].
        - apply adv_rest; [exact G1|]. apply unquote_length with (n := List.length b) in EU; [|auto].
          rewrite E. cbn [List.length]. lia.
        - apply adv_ended. exact G1. }
      destruct c; try (eapply adv_trans; [exact A|apply adv_rd_token]). apply Hq. reflexivity.
  - cbn [snd]. apply adv_ended. exact G.
  - cbn [snd]. apply adv_set_fail.
Qed.

Lemma adv_peek : forall s, adv s (snd (peek s)).
Proof.
  intro s. unfold peek, sentry_noskip. destruct (good s) eqn:G.
  - destruct (rest s) eqn:E; cbn [snd]; [|apply adv_refl].
    unfold set_eof. rewrite E. apply adv_ended. exact G.
  - cbn [snd]. apply adv_set_fail.
Qed.

Lemma adv_get_char : forall s, adv s (get_char s).
Proof.
  intro s. unfold get_char, sentry_noskip. destruct (good s) eqn:G.
  - destruct (rest s) eqn:E; [apply adv_ended; exact G|].
    apply adv_rest; [exact G|]. rewrite E. cbn [List.length]. lia.
  - apply adv_set_fail.
Qed.

Lemma adv_eat1 : forall s, adv s (snd (eat1 s)).
Proof.
  intro s. unfold eat1. pose proof (adv_peek s) as P. destruct (peek s) as [c s1]. cbn [snd] in P.
  destruct (is_eaten c); [|exact P]. cbn [snd].
  eapply adv_trans; [exact P|]. eapply adv_trans; [apply adv_get_char|apply adv_peek].
Qed.

Lemma adv_eat_loop : forall f c s, adv s (eat_all_loop f c s).
Proof.
  induction f as [|f IH]; intros c s; cbn [eat_all_loop]; [apply adv_refl|].
  destruct (is_eaten c); [|apply adv_refl].
  pose proof (adv_peek (get_char s)) as P. destruct (peek (get_char s)) as [c' s']. cbn [snd] in P.
  eapply adv_trans; [apply adv_get_char|]. eapply adv_trans; [exact P|apply IH].
Qed.

Lemma adv_eat_all : forall s, adv s (snd (eat_all s)).
Proof.
  intro s. unfold eat_all. pose proof (adv_peek s) as P. destruct (peek s) as [c s1]. cbn [snd] in *.
  eapply adv_trans; [exact P|apply adv_eat_loop].
Qed.

Lemma adv_rd_raw : forall old s, adv s (snd (rd_raw old s)).
Proof.
  intros old s. unfold rd_raw, sentry_noskip. destruct (good s) eqn:G.
  - destruct (_ <? _)%nat; cbn [snd].
    + apply adv_ended. exact G.
    + apply adv_rest; [exact G|]. rewrite skipn_length. lia.
  - cbn [snd]. apply adv_set_fail.
Qed.

Lemma adv_rd_raw_size : forall old s, adv s (snd (rd_raw_size old s)).
Proof.
  intros old s. unfold rd_raw_size. pose proof (adv_rd_raw (le 8 old) s) as P.
  destruct (rd_raw (le 8 old) s) as [[b k] s']. exact P.
Qed.

Lemma adv_rd_raw_int : forall old s, adv s (snd (rd_raw_int old s)).
Proof.
  intros old s. unfold rd_raw_int. pose proof (adv_rd_raw (le 4 old) s) as P.
  destruct (rd_raw (le 4 old) s) as [[b k] s']. exact P.
Qed.

Lemma adv_rd_raw_int_opt : forall old s, adv s (snd (rd_raw_int_opt old s)).
Proof.
  intros [v|] s; unfold rd_raw_int_opt.
  - pose proof (adv_rd_raw_int v s) as P. destruct (rd_raw_int v s). exact P.
  - pose proof (adv_rd_raw (repeat x00 4) s) as P.
    destruct (rd_raw (repeat x00 4) s) as [[b k] s']. exact P.
Qed.

Lemma adv_rd_raw_size_opt : forall old s, adv s (snd (rd_raw_size_opt old s)).
Proof.
  intros [v|] s; unfold rd_raw_size_opt.
  - pose proof (adv_rd_raw_size v s) as P. destruct (rd_raw_size v s). exact P.
  - pose proof (adv_rd_raw (repeat x00 8) s) as P.
    destruct (rd_raw (repeat x00 8) s) as [[b k] s']. exact P.
Qed.

Lemma mono_op_token : forall o, mono (op (rd_token o)).
Proof. intro; apply mono_op; apply adv_rd_token. Qed.
Lemma mono_op_int : forall o, mono (op (rd_int o)).
Proof. intro; apply mono_op; intro; apply adv_rd_num; apply shrinks_int. Qed.
Lemma mono_op_size : forall o, mono (op (rd_size o)).
Proof. intro; apply mono_op; intro; apply adv_rd_num; apply shrinks_size. Qed.
Lemma mono_op_double : forall o, mono (op (rd_double o)).
Proof. intro; apply mono_op; intro; apply adv_rd_num; apply shrinks_double. Qed.
Lemma mono_op_int_opt : forall o, mono (op (rd_int_opt o)).
Proof. intro; apply mono_op; intro; apply adv_rd_num_opt; apply shrinks_int. Qed.
Lemma mono_op_size_opt : forall o, mono (op (rd_size_opt o)).
Proof. intro; apply mono_op; intro; apply adv_rd_num_opt; apply shrinks_size. Qed.
Lemma mono_op_quoted : forall o, mono (op (rd_quoted o)).
Proof. intro; apply mono_op; apply adv_rd_quoted. Qed.
Lemma mono_op_eat1 : mono (op eat1).
Proof. apply mono_op; apply adv_eat1. Qed.
Lemma mono_op_eat_all : mono (op eat_all).
Proof. apply mono_op; apply adv_eat_all. Qed.
Lemma mono_op_raw_size : forall o, mono (op (rd_raw_size o)).
Proof. intro; apply mono_op; apply adv_rd_raw_size. Qed.
Lemma mono_op_raw_double : forall o, mono (op (rd_raw_double o)).
Proof. intro; apply mono_op; apply adv_rd_raw_size. Qed.
Lemma mono_op_raw_int : forall o, mono (op (rd_raw_int o)).
Proof. intro; apply mono_op; apply adv_rd_raw_int. Qed.
Lemma mono_op_raw_int_opt : forall o, mono (op (rd_raw_int_opt o)).
Proof. intro; apply mono_op; apply adv_rd_raw_int_opt. Qed.
Lemma mono_op_raw_size_opt : forall o, mono (op (rd_raw_size_opt o)).
Proof. intro; apply mono_op; apply adv_rd_raw_size_opt. Qed.

Lemma mono_sentry : mono (op (fun s => let (_, s') := sentry_noskip s in (tt, s'))).
Proof.
  apply mono_op. intro s. unfold sentry_noskip. destruct (good s); cbn [snd]; [apply adv_refl|apply adv_set_fail].
Qed.

Lemma mono_raw_array_size : forall l, mono (rd_raw_array rd_raw_size l).
Proof.
  intro l. unfold rd_raw_array. apply mono_bind; [apply mono_sentry|]. intros _.
  apply mono_mapM. apply mono_op_raw_size.
Qed.
Lemma mono_raw_array_double : forall l, mono (rd_raw_array rd_raw_double l).
Proof. exact mono_raw_array_size. Qed.
Lemma mono_raw_array_int : forall l, mono (rd_raw_array rd_raw_int l).
Proof.
  intro l. unfold rd_raw_array. apply mono_bind; [apply mono_sentry|]. intros _.
  apply mono_mapM. apply mono_op_raw_int.
Qed.

Ltac mono1 :=
  first
  [ apply mono_ret | apply mono_throw | apply mono_undef | apply mono_lift | apply mono_use
  | apply mono_massert | apply mono_assert_good
  | apply mono_op_token | apply mono_op_int | apply mono_op_size | apply mono_op_double
  | apply mono_op_int_opt | apply mono_op_size_opt | apply mono_op_quoted
  | apply mono_op_eat1 | apply mono_op_eat_all
  | apply mono_op_raw_size | apply mono_op_raw_double | apply mono_op_raw_int
  | apply mono_op_raw_int_opt | apply mono_op_raw_size_opt
  | apply mono_raw_array_size | apply mono_raw_array_double | apply mono_raw_array_int
  | (apply mono_mapM; intro) | (apply mono_fill; intro) | (apply mono_iterM; intro)
  | apply mono_bind; [|intro] ].
Ltac mono_go :=
  repeat first [ mono1 | match goal with
    | |- mono (if ?b then _ else _) => destruct b
    | |- mono (let (_, _) := ?p in _) => destruct p
    | |- mono (match ?l with [] => _ | _ => _ end) => destruct l
    end ].

Lemma mono_mesh_format : forall spec, mono (load_mesh_format spec).
Proof. intro. unfold load_mesh_format. mono_go. Qed.

Lemma mono_nodes : forall c spec, mono (load_nodes c spec).
Proof.
  intros. unfold load_nodes, v41_load_nodes_ascii, v41_load_nodes_binary, v22_load_nodes_ascii,
    v22_load_nodes_binary, v41_node_block_ascii, v41_node_block_binary, v22_node_ascii, v22_node_binary, rd_raw_into.
  mono_go.
Qed.

Lemma mono_entities : forall c spec, mono (load_entities c spec).
Proof.
  intros. unfold load_entities, v41_load_entities_ascii, v41_load_entities_binary, resize_entities,
    point_ascii, point_binary, entity_ascii, entity_binary, ints_ascii, ints_binary. mono_go.
Qed.

Lemma mono_groups : forall c spec, mono (load_physical_groups c spec).
Proof. intros. unfold load_physical_groups, load_group. mono_go. Qed.

Lemma mono_data : forall c v b e, mono (load_data c v b e).
Proof.
  intros. unfold load_data, load_data_header, entry_binary, entry_ascii. mono_go.
Qed.

Lemma mono_curves : forall c spec, mono (load_curves c spec).
Proof. intros. unfold load_curves, load_curve. mono_go. Qed.

Lemma mono_patches : forall c spec, mono (load_patches c spec).
Proof. intros. unfold load_patches, load_patch. mono_go. Qed.

Lemma mono_elements_loop : forall f c N st, mono (v22_elements_loop f c N st).
Proof.
  induction f as [|f IH]; intros c N st; cbn [v22_elements_loop].
  - intros s a s' H. discriminate.
  - destruct (vb_done st =? N); [apply mono_ret|]. unfold v22_element_binary.
    repeat first [apply IH | mono1 | match goal with
    | |- mono (if ?b then _ else _) => destruct b
    | |- mono (let (_, _) := ?p in _) => destruct p
    end].
Qed.

Lemma mono_elements : forall c spec, mono (load_elements c spec).
Proof.
  intros. unfold load_elements, v41_load_elements_ascii, v41_load_elements_binary,
    v22_load_elements_ascii, v22_load_elements_binary, v41_element_block_ascii,
    v41_element_block_binary, v22_element_ascii.
  repeat first [ mono1 | match goal with
    | |- mono (if ?b then _ else _) => destruct b
    | |- mono (let (_, _) := ?p in _) => destruct p
    | |- mono (match ?l with [] => _ | _ => _ end) => destruct l
    end ].
  intros s x s' H. eapply mono_elements_loop. exact H.
Qed.

Lemma mono_dispatch : forall c buf spec, mono (dispatch c buf spec).
Proof.
  intros. unfold dispatch.
  repeat match goal with |- mono (if ?b then _ else _) => destruct b end.
  - apply mono_mesh_format.
  - apply mono_entities.
  - apply mono_groups.
  - apply mono_nodes.
  - apply mono_elements.
  - unfold load_node_data. apply mono_bind; [apply mono_data|intro; apply mono_ret].
  - unfold load_element_data. apply mono_bind; [apply mono_data|intro; apply mono_ret].
  - unfold load_element_node_data. apply mono_bind; [apply mono_data|intro; apply mono_ret].
  - unfold load_nanospline_format. mono_go.
  - apply mono_curves.
  - apply mono_patches.
  - apply mono_ret.
Qed.
