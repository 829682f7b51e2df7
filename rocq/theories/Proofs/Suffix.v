(** What a loader leaves unread is an end of what it was given. *)

From Verif Require Import Model.Save Proofs.BytesP Proofs.RtBase Proofs.Mono.

Definition ends (b r : bytes) : Prop := exists p, b = p ++ r.
Definition sub (s s' : istream) : Prop := ends (rest s) (rest s').

Lemma ends_refl : forall b, ends b b.
Proof. intro b. exists []. reflexivity. Qed.
Lemma ends_nil : forall b, ends b [].
Proof. intro b. exists b. symmetry. apply app_nil_r. Qed.
Lemma ends_cons : forall c b r, ends b r -> ends (c :: b) r.
Proof. intros c b r (p & ->). exists (c :: p). reflexivity. Qed.
Lemma ends_trans : forall a b c, ends a b -> ends b c -> ends a c.
Proof. intros a b c (p & ->) (q & ->). exists (p ++ q). apply app_assoc. Qed.

Lemma sub_refl : forall s, sub s s.
Proof. intro s. apply ends_refl. Qed.
Lemma sub_trans : forall s1 s2 s3, sub s1 s2 -> sub s2 s3 -> sub s1 s3.
Proof. intros s1 s2 s3. apply ends_trans. Qed.

Definition sfx {A} (m : M A) : Prop := forall s a s', m s = Ok (a, s') -> sub s s'.

Lemma sfx_bind : forall A B (m : M A) (f : A -> M B),
  sfx m -> (forall a, sfx (f a)) -> sfx (bind m f).
Proof.
  intros A B m f Hm Hf s b s' H. unfold bind in H.
  destruct (m s) as [[a s1]|e|u| |] eqn:E; try discriminate.
  eapply sub_trans; [eapply Hm; exact E|eapply Hf; exact H].
Qed.

Lemma sfx_ret : forall A (a : A), sfx (ret a).
Proof. intros A a s b s' H. injection H as -> ->. apply sub_refl. Qed.

Lemma sfx_throw : forall A e, sfx (@throw A e).
Proof. intros A e s a s' H. discriminate. Qed.

Lemma sfx_undef : forall A u, sfx (@undef A u).
Proof. intros A u s a s' H. discriminate. Qed.

Lemma sfx_lift : forall A (o : outcome A), sfx (lift o).
Proof. intros A o s a s' H. destruct o; try discriminate. injection H as -> ->. apply sub_refl. Qed.

Lemma sfx_use : forall A (o : option A), sfx (use o).
Proof. intros A [a|]; [apply sfx_ret|apply sfx_undef]. Qed.

Lemma sfx_massert : forall c b, sfx (massert c b).
Proof.
  intros c b s a s' H. unfold massert in H.
  destruct (ndebug c), b; try discriminate; injection H as _ <-; apply sub_refl.
Qed.

Lemma sfx_assert_good : forall c, sfx (assert_good c).
Proof. intros c s a s' H. eapply sfx_massert. exact H. Qed.

Lemma sfx_mapM : forall A B (f : A -> M B) l, (forall x, sfx (f x)) -> sfx (mapM f l).
Proof.
  intros A B f l H. induction l as [|x l IH]; cbn [mapM]; [apply sfx_ret|].
  apply sfx_bind; [apply H|]. intro y. apply sfx_bind; [exact IH|]. intro. apply sfx_ret.
Qed.

Lemma sfx_iterM : forall S n (f : S -> M S), (forall s, sfx (f s)) -> forall s, sfx (iterM n f s).
Proof.
  intros S n f H. induction n as [|n IH]; intro s; cbn [iterM]; [apply sfx_ret|].
  apply sfx_bind; [apply H|exact IH].
Qed.

Lemma sfx_fill : forall A cnt (f : A -> M A) v, (forall x, sfx (f x)) -> sfx (fill cnt f v).
Proof.
  intros A cnt f v H. unfold fill. destruct (cnt =? zlen v); [apply sfx_mapM; exact H|apply sfx_undef].
Qed.

Lemma sfx_op : forall A (f : istream -> A * istream), (forall s, sub s (snd (f s))) -> sfx (op f).
Proof.
  intros A f H s a s' E. unfold op in E. injection E as E. specialize (H s). rewrite E in H. exact H.
Qed.

(** ** Stream operations *)

Lemma skip_ws_ends : forall b, ends b (skip_ws b).
Proof. induction b as [|c b IH]; [apply ends_refl|]. cbn [skip_ws]. destruct (is_ws c); [apply ends_cons; exact IH|apply ends_refl]. Qed.

Lemma sub_ended : forall s f, sub s {| rest := []; eofb := true; failb := f |}.
Proof. intros. apply ends_nil. Qed.
Lemma sub_set_fail : forall s, sub s (set_fail s).
Proof. intro s. apply ends_refl. Qed.

Lemma take_token_split : forall b t r, take_token b = (t, r) -> b = t ++ r.
Proof.
  induction b as [|c b IH]; intros t r H; cbn [take_token] in H.
  - injection H as <- <-. reflexivity.
  - destruct (is_ws c); [injection H as <- <-; reflexivity|].
    destruct (take_token b) as [t' r']. injection H as <- <-. cbn [app]. f_equal. apply IH. reflexivity.
Qed.

Lemma sub_rd_token : forall old s, sub s (snd (rd_token old s)).
Proof.
  intros old s. unfold rd_token.
  destruct (sentry_cases s) as [(G & N & ->)|[(G & N & ->)|(G & ->)]].
  - cbn [with_rest IStream.rest]. destruct (take_token (skip_ws (rest s))) as [t r] eqn:E.
    cbn [snd]. destruct (at_end_rest r (with_rest (skip_ws (rest s)) s)) as (e & ->).
    eapply ends_trans; [apply skip_ws_ends|]. exists t. apply take_token_split. exact E.
  - apply sub_ended.
  - apply sub_set_fail.
Qed.

Definition leaves {A} (ext : bytes -> A * bool * bytes) : Prop := forall b, ends b (snd (ext b)).

Lemma sub_rd_num : forall A (ext : bytes -> A * bool * bytes) old s, leaves ext ->
  sub s (snd (rd_num ext old s)).
Proof.
  intros A ext old s H. unfold rd_num.
  destruct (sentry_cases s) as [(G & N & ->)|[(G & N & ->)|(G & ->)]].
  - cbn [with_rest IStream.rest]. specialize (H (skip_ws (rest s))).
    destruct (ext (skip_ws (rest s))) as [[v fl] r] eqn:E.
    cbn [snd] in *. destruct (at_end_rest r (with_rest (skip_ws (rest s)) s)) as (e & ->).
    assert (L : ends (rest s) r) by (eapply ends_trans; [apply skip_ws_ends|exact H]).
    destruct fl; exact L.
  - apply sub_ended.
  - apply sub_set_fail.
Qed.

Lemma sub_rd_num_opt : forall A (ext : bytes -> A * bool * bytes) old s, leaves ext ->
  sub s (snd (rd_num_opt ext old s)).
Proof.
  intros A ext old s H. unfold rd_num_opt.
  destruct (sentry_cases s) as [(G & N & ->)|[(G & N & ->)|(G & ->)]].
  - cbn [with_rest IStream.rest]. specialize (H (skip_ws (rest s))).
    destruct (ext (skip_ws (rest s))) as [[v fl] r] eqn:E.
    cbn [snd] in *. destruct (at_end_rest r (with_rest (skip_ws (rest s)) s)) as (e & ->).
    assert (L : ends (rest s) r) by (eapply ends_trans; [apply skip_ws_ends|exact H]).
    destruct fl; exact L.
  - apply sub_ended.
  - apply sub_set_fail.
Qed.

Lemma take_digits_ends : forall b, ends b (snd (take_digits b)).
Proof.
  induction b as [|c b IH]; [apply ends_refl|]. cbn [take_digits]. destruct (digit_of c); [|apply ends_refl].
  destruct (take_digits b). apply ends_cons. exact IH.
Qed.

Lemma take_sign_ends : forall b, ends b (snd (take_sign b)).
Proof.
  destruct b as [|c b]; [apply ends_refl|]. unfold take_sign.
  destruct c; cbn [snd]; first [apply ends_refl|apply ends_cons, ends_refl].
Qed.

Lemma leaves_int : leaves extract_int.
Proof.
  intro b. unfold extract_int. pose proof (take_sign_ends b). destruct (take_sign b) as [n b1].
  pose proof (take_digits_ends b1). destruct (take_digits b1) as [ds b2]. cbn [snd] in *.
  assert (ends b b2) by (eapply ends_trans; eassumption).
  destruct ds; [assumption|].
  repeat match goal with |- context [if ?x then _ else _] => destruct x end; cbn [snd]; assumption.
Qed.

Lemma leaves_size : leaves extract_size.
Proof.
  intro b. unfold extract_size. pose proof (take_sign_ends b). destruct (take_sign b) as [n b1].
  pose proof (take_digits_ends b1). destruct (take_digits b1) as [ds b2]. cbn [snd] in *.
  assert (ends b b2) by (eapply ends_trans; eassumption).
  destruct ds; [assumption|].
  repeat match goal with |- context [if ?x then _ else _] => destruct x end; cbn [snd]; assumption.
Qed.

Lemma scan_float_ends : forall n b fm fd fs, (List.length b <= n)%nat -> ends b (snd (scan_float fm fd fs b)).
Proof.
  induction n as [|n IH]; intros b fm fd fs L.
  - destruct b; [apply ends_refl|cbn in L; lia].
  - destruct b as [|c b]; [apply ends_refl|]. cbn [List.length] in L. cbn [scan_float].
    assert (Q : forall fm fd fs b', ends b b' -> (List.length b' <= List.length b)%nat -> forall (g : bytes -> bytes),
      ends (c :: b) (snd (let (t, r) := scan_float fm fd fs b' in (g t, r)))).
    { intros fm' fd' fs' b' E' L' g. specialize (IH b' fm' fd' fs' ltac:(lia)).
      destruct (scan_float fm' fd' fs' b'). cbn [snd] in *. apply ends_cons. eapply ends_trans; eassumption. }
    destruct (is_digit c); [apply (Q _ _ _ b (ends_refl b) (le_n _) (fun t => c :: t))|].
    destruct (Byte.eqb c x2e && negb fd && negb fs); [apply (Q _ _ _ b (ends_refl b) (le_n _) (fun t => c :: t))|].
    destruct ((Byte.eqb c x65 || Byte.eqb c x45) && negb fs && fm); [|apply ends_refl].
    destruct b as [|c' b]; [apply (Q _ _ _ [] (ends_refl _) (le_n _) (fun t => x65 :: t))|].
    destruct c';
      first [ apply (Q fm fd true (_ :: b) (ends_refl _) (le_n _) (fun t => x65 :: t))
            | apply (Q fm fd true b (ends_cons _ _ _ (ends_refl _)) (le_S _ _ (le_n _)) (fun t => x65 :: _ :: t)) ].
Qed.

Lemma leaves_double : leaves extract_double.
Proof.
  intro b. unfold extract_double. pose proof (take_sign_ends b). destruct (take_sign b) as [n b1].
  pose proof (scan_float_ends _ b1 false false false (le_n _)).
  destruct (scan_float false false false b1) as [t b2]. cbn [snd] in *.
  assert (ends b b2) by (eapply ends_trans; eassumption).
  destruct (parse_dec t) as [[m e]|]; [|assumption].
  destruct (inf_mag <=? round_dec m e); assumption.
Qed.

Lemma unquote_ends : forall n b t r, (List.length b <= n)%nat -> unquote b = (t, Some r) -> ends b r.
Proof.
  induction n as [|n IH]; intros b t r L H.
  - destruct b; [discriminate|cbn in L; lia].
  - destruct b as [|c b]; [discriminate|]. cbn [List.length] in *.
    assert (Q : forall t0 (o : option bytes) c0, unquote b = (t0, o) -> (c0 :: t0, o) = (t, Some r) -> ends (c :: b) r).
    { intros t0 o c0 E E'. injection E' as _ ->. apply IH in E; [apply ends_cons; exact E|lia]. }
    destruct c; cbn [unquote] in H;
      try (destruct (unquote b) as [t0 o] eqn:E; eapply Q; [reflexivity|exact H]).
    + injection H as _ <-. apply ends_cons, ends_refl.
    + destruct b as [|c b]; [discriminate|]. destruct (unquote b) as [t0 o] eqn:E.
      injection H as _ ->. cbn [List.length] in *. apply IH in E; [apply ends_cons, ends_cons; exact E|lia].
Qed.

Lemma sub_rd_quoted : forall old s, sub s (snd (rd_quoted old s)).
Proof.
  intros old s. unfold rd_quoted.
  destruct (sentry_cases s) as [(G & N & ->)|[(G & N & ->)|(G & ->)]].
  - set (s1 := with_rest (skip_ws (rest s)) s).
    assert (A : sub s s1) by apply skip_ws_ends.
    destruct (rest s1) as [|c b] eqn:E.
    + eapply sub_trans; [exact A|apply sub_rd_token].
    + assert (Hq : forall x, x = match unquote b with
        | (t, Some r) => (t, with_rest r s1)
        | (t, None) => (t, {| rest := []; eofb := true; failb := true |}) end -> sub s (snd x)).
      { intros x ->. eapply sub_trans; [exact A|]. destruct (unquote b) as [t [r|]] eqn:EU; cbn [snd].
        - apply unquote_ends with (n := List.length b) in EU; [|auto].
          unfold sub. rewrite E. apply ends_cons. exact EU.
        - apply sub_ended. }
      destruct c; try (eapply sub_trans; [exact A|apply sub_rd_token]). apply Hq. reflexivity.
  - apply sub_ended.
  - apply sub_set_fail.
Qed.

Lemma sub_peek : forall s, sub s (snd (peek s)).
Proof.
  intro s. unfold peek, sentry_noskip. destruct (good s) eqn:G.
  - destruct (rest s) eqn:E; cbn [snd]; [|apply sub_refl]. unfold sub, set_eof. cbn [IStream.rest]. apply ends_refl.
  - apply sub_set_fail.
Qed.

Lemma sub_get_char : forall s, sub s (get_char s).
Proof.
  intro s. unfold get_char, sentry_noskip. destruct (good s) eqn:G.
  - destruct (rest s) eqn:E; [apply sub_ended|]. unfold sub. rewrite E. apply ends_cons, ends_refl.
  - apply sub_set_fail.
Qed.

Lemma sub_eat1 : forall s, sub s (snd (eat1 s)).
Proof.
  intro s. unfold eat1. pose proof (sub_peek s) as P. destruct (peek s) as [c s1]. cbn [snd] in P.
  destruct (is_eaten c); [|exact P]. cbn [snd].
  eapply sub_trans; [exact P|]. eapply sub_trans; [apply sub_get_char|apply sub_peek].
Qed.

Lemma sub_eat_loop : forall f c s, sub s (eat_all_loop f c s).
Proof.
  induction f as [|f IH]; intros c s; cbn [eat_all_loop]; [apply sub_refl|].
  destruct (is_eaten c); [|apply sub_refl].
  pose proof (sub_peek (get_char s)) as P. destruct (peek (get_char s)) as [c' s']. cbn [snd] in P.
  eapply sub_trans; [apply sub_get_char|]. eapply sub_trans; [exact P|apply IH].
Qed.

Lemma sub_eat_all : forall s, sub s (snd (eat_all s)).
Proof.
  intro s. unfold eat_all. pose proof (sub_peek s) as P. destruct (peek s) as [c s1]. cbn [snd] in *.
  eapply sub_trans; [exact P|apply sub_eat_loop].
Qed.

Lemma sub_rd_raw : forall old s, sub s (snd (rd_raw old s)).
Proof.
  intros old s. unfold rd_raw, sentry_noskip. destruct (good s) eqn:G.
  - destruct (_ <? _)%nat; cbn [snd].
    + apply sub_ended.
    + eexists. symmetry. apply firstn_skipn.
  - apply sub_set_fail.
Qed.

Lemma sub_rd_raw_size : forall old s, sub s (snd (rd_raw_size old s)).
Proof.
  intros old s. unfold rd_raw_size. pose proof (sub_rd_raw (le 8 old) s) as P.
  destruct (rd_raw (le 8 old) s) as [[b k] s']. exact P.
Qed.

Lemma sub_rd_raw_int : forall old s, sub s (snd (rd_raw_int old s)).
Proof.
  intros old s. unfold rd_raw_int. pose proof (sub_rd_raw (le 4 old) s) as P.
  destruct (rd_raw (le 4 old) s) as [[b k] s']. exact P.
Qed.

Lemma sub_rd_raw_int_opt : forall old s, sub s (snd (rd_raw_int_opt old s)).
Proof.
  intros [v|] s; unfold rd_raw_int_opt.
  - pose proof (sub_rd_raw_int v s) as P. destruct (rd_raw_int v s). exact P.
  - pose proof (sub_rd_raw (repeat x00 4) s) as P.
    destruct (rd_raw (repeat x00 4) s) as [[b k] s']. exact P.
Qed.

Lemma sub_rd_raw_size_opt : forall old s, sub s (snd (rd_raw_size_opt old s)).
Proof.
  intros [v|] s; unfold rd_raw_size_opt.
  - pose proof (sub_rd_raw_size v s) as P. destruct (rd_raw_size v s). exact P.
  - pose proof (sub_rd_raw (repeat x00 8) s) as P.
    destruct (rd_raw (repeat x00 8) s) as [[b k] s']. exact P.
Qed.

Lemma sfx_op_token : forall o, sfx (op (rd_token o)).
Proof. intro; apply sfx_op; apply sub_rd_token. Qed.
Lemma sfx_op_int : forall o, sfx (op (rd_int o)).
Proof. intro; apply sfx_op; intro; apply sub_rd_num; apply leaves_int. Qed.
Lemma sfx_op_size : forall o, sfx (op (rd_size o)).
Proof. intro; apply sfx_op; intro; apply sub_rd_num; apply leaves_size. Qed.
Lemma sfx_op_double : forall o, sfx (op (rd_double o)).
Proof. intro; apply sfx_op; intro; apply sub_rd_num; apply leaves_double. Qed.
Lemma sfx_op_int_opt : forall o, sfx (op (rd_int_opt o)).
Proof. intro; apply sfx_op; intro; apply sub_rd_num_opt; apply leaves_int. Qed.
Lemma sfx_op_size_opt : forall o, sfx (op (rd_size_opt o)).
Proof. intro; apply sfx_op; intro; apply sub_rd_num_opt; apply leaves_size. Qed.
Lemma sfx_op_quoted : forall o, sfx (op (rd_quoted o)).
Proof. intro; apply sfx_op; apply sub_rd_quoted. Qed.
Lemma sfx_op_eat1 : sfx (op eat1).
Proof. apply sfx_op; apply sub_eat1. Qed.
Lemma sfx_op_eat_all : sfx (op eat_all).
Proof. apply sfx_op; apply sub_eat_all. Qed.
Lemma sfx_op_raw_size : forall o, sfx (op (rd_raw_size o)).
Proof. intro; apply sfx_op; apply sub_rd_raw_size. Qed.
Lemma sfx_op_raw_double : forall o, sfx (op (rd_raw_double o)).
Proof. intro; apply sfx_op; apply sub_rd_raw_size. Qed.
Lemma sfx_op_raw_int : forall o, sfx (op (rd_raw_int o)).
Proof. intro; apply sfx_op; apply sub_rd_raw_int. Qed.
Lemma sfx_op_raw_int_opt : forall o, sfx (op (rd_raw_int_opt o)).
Proof. intro; apply sfx_op; apply sub_rd_raw_int_opt. Qed.
Lemma sfx_op_raw_size_opt : forall o, sfx (op (rd_raw_size_opt o)).
Proof. intro; apply sfx_op; apply sub_rd_raw_size_opt. Qed.

Lemma sfx_sentry : sfx (op (fun s => let (_, s') := sentry_noskip s in (tt, s'))).
Proof.
  apply sfx_op. intro s. unfold sentry_noskip. destruct (good s); cbn [snd]; [apply sub_refl|apply sub_set_fail].
Qed.

Lemma sfx_raw_array_size : forall l, sfx (rd_raw_array rd_raw_size l).
Proof.
  intro l. unfold rd_raw_array. apply sfx_bind; [apply sfx_sentry|]. intros _.
  apply sfx_mapM. apply sfx_op_raw_size.
Qed.
Lemma sfx_raw_array_double : forall l, sfx (rd_raw_array rd_raw_double l).
Proof. exact sfx_raw_array_size. Qed.
Lemma sfx_raw_array_int : forall l, sfx (rd_raw_array rd_raw_int l).
Proof.
  intro l. unfold rd_raw_array. apply sfx_bind; [apply sfx_sentry|]. intros _.
  apply sfx_mapM. apply sfx_op_raw_int.
Qed.

Ltac sfx1 :=
  first
  [ apply sfx_ret | apply sfx_throw | apply sfx_undef | apply sfx_lift | apply sfx_use
  | apply sfx_massert | apply sfx_assert_good
  | apply sfx_op_token | apply sfx_op_int | apply sfx_op_size | apply sfx_op_double
  | apply sfx_op_int_opt | apply sfx_op_size_opt | apply sfx_op_quoted
  | apply sfx_op_eat1 | apply sfx_op_eat_all
  | apply sfx_op_raw_size | apply sfx_op_raw_double | apply sfx_op_raw_int
  | apply sfx_op_raw_int_opt | apply sfx_op_raw_size_opt
  | apply sfx_raw_array_size | apply sfx_raw_array_double | apply sfx_raw_array_int
  | (apply sfx_mapM; intro) | (apply sfx_fill; intro) | (apply sfx_iterM; intro)
  | apply sfx_bind; [|intro] ].
Ltac sfx_go :=
  repeat first [ sfx1 | match goal with
    | |- sfx (if ?b then _ else _) => destruct b
    | |- sfx (let (_, _) := ?p in _) => destruct p
    | |- sfx (match ?l with [] => _ | _ => _ end) => destruct l
    end ].

Lemma sfx_mesh_format : forall spec, sfx (load_mesh_format spec).
Proof. intro. unfold load_mesh_format. sfx_go. Qed.

Lemma sfx_nodes : forall c spec, sfx (load_nodes c spec).
Proof.
  intros. unfold load_nodes, v41_load_nodes_ascii, v41_load_nodes_binary, v22_load_nodes_ascii,
    v22_load_nodes_binary, v41_node_block_ascii, v41_node_block_binary, v22_node_ascii, v22_node_binary, rd_raw_into.
  sfx_go.
Qed.

Lemma sfx_entities : forall c spec, sfx (load_entities c spec).
Proof.
  intros. unfold load_entities, v41_load_entities_ascii, v41_load_entities_binary, resize_entities,
    point_ascii, point_binary, entity_ascii, entity_binary, ints_ascii, ints_binary. sfx_go.
Qed.

Lemma sfx_groups : forall c spec, sfx (load_physical_groups c spec).
Proof. intros. unfold load_physical_groups, load_group. sfx_go. Qed.

Lemma sfx_data : forall c v b e, sfx (load_data c v b e).
Proof.
  intros. unfold load_data, load_data_header, entry_binary, entry_ascii. sfx_go.
Qed.

Lemma sfx_curves : forall c spec, sfx (load_curves c spec).
Proof. intros. unfold load_curves, load_curve. sfx_go. Qed.

Lemma sfx_patches : forall c spec, sfx (load_patches c spec).
Proof. intros. unfold load_patches, load_patch. sfx_go. Qed.

Lemma sfx_elements_loop : forall f c N st, sfx (v22_elements_loop f c N st).
Proof.
  induction f as [|f IH]; intros c N st; cbn [v22_elements_loop].
  - intros s a s' H. discriminate.
  - destruct (vb_done st =? N); [apply sfx_ret|]. unfold v22_element_binary.
    repeat first [apply IH | sfx1 | match goal with
    | |- sfx (if ?b then _ else _) => destruct b
    | |- sfx (let (_, _) := ?p in _) => destruct p
    end].
Qed.

Lemma sfx_elements : forall c spec, sfx (load_elements c spec).
Proof.
  intros. unfold load_elements, v41_load_elements_ascii, v41_load_elements_binary,
    v22_load_elements_ascii, v22_load_elements_binary, v41_element_block_ascii,
    v41_element_block_binary, v22_element_ascii.
  repeat first [ sfx1 | match goal with
    | |- sfx (if ?b then _ else _) => destruct b
    | |- sfx (let (_, _) := ?p in _) => destruct p
    | |- sfx (match ?l with [] => _ | _ => _ end) => destruct l
    end ].
  intros s x s' H. eapply sfx_elements_loop. exact H.
Qed.

Lemma sfx_dispatch : forall c buf spec, sfx (dispatch c buf spec).
Proof.
  intros. unfold dispatch.
  repeat match goal with |- sfx (if ?b then _ else _) => destruct b end.
  - apply sfx_mesh_format.
  - apply sfx_entities.
  - apply sfx_groups.
  - apply sfx_nodes.
  - apply sfx_elements.
  - unfold load_node_data. apply sfx_bind; [apply sfx_data|intro; apply sfx_ret].
  - unfold load_element_data. apply sfx_bind; [apply sfx_data|intro; apply sfx_ret].
  - unfold load_element_node_data. apply sfx_bind; [apply sfx_data|intro; apply sfx_ret].
  - unfold load_nanospline_format. sfx_go.
  - apply sfx_curves.
  - apply sfx_patches.
  - apply sfx_ret.
Qed.
