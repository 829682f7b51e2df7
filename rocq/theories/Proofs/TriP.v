(** What a loader computation can end with, whatever the stream: [Q] for the
    value of a normal return, [U] for the kind of undefined behaviour. *)

From Verif Require Import Model.LoadMsh Spec.Ranges Proofs.BytesP Proofs.DblP Proofs.RtBase.

Ltac Zify.zify_post_hook ::= idtac.

Definition tri {A} (m : M A) (Q : A -> Prop) (U : ub -> Prop) : Prop :=
  forall s, match m s with
            | Ok (a, _) => Q a
            | Undef u => U u
            | _ => True
            end.

Section Rules.
Variable U : ub -> Prop.

Lemma tri_bind : forall A B (m : M A) (f : A -> M B) P Q,
  tri m P U -> (forall a, P a -> tri (f a) Q U) -> tri (bind m f) Q U.
Proof.
  intros A B m f P Q Hm Hf s. specialize (Hm s). unfold bind.
  destruct (m s) as [[a s1]| | | |]; [|exact I|exact Hm|exact I|exact I]. apply (Hf a Hm s1).
Qed.

Lemma tri_weaken : forall A (m : M A) (P Q : A -> Prop),
  tri m P U -> (forall a, P a -> Q a) -> tri m Q U.
Proof. intros A m P Q H W s. specialize (H s). destruct (m s) as [[a s1]| | | |]; auto. Qed.

Lemma tri_ret : forall A (a : A) (Q : A -> Prop), Q a -> tri (ret a) Q U.
Proof. intros A a Q H s. exact H. Qed.

Lemma tri_throw : forall A e (Q : A -> Prop), tri (throw e) Q U.
Proof. intros A e Q s. exact I. Qed.

Lemma tri_undef : forall A u (Q : A -> Prop), U u -> tri (undef u) Q U.
Proof. intros A u Q H s. exact H. Qed.

Lemma tri_lift : forall A (o : outcome A) (Q : A -> Prop),
  match o with Ok a => Q a | Undef u => U u | _ => True end -> tri (lift o) Q U.
Proof. intros A o Q H s. unfold lift. destruct o; exact H. Qed.

Lemma tri_use : forall A (o : option A) (P : A -> Prop), (forall a, o = Some a -> P a) ->
  U Indeterminate -> tri (use o) P U.
Proof. intros A [a|] P H HU; [apply tri_ret; auto|apply tri_undef; exact HU]. Qed.

Lemma tri_op : forall A (f : istream -> A * istream) (Q : A -> Prop),
  (forall s, Q (fst (f s))) -> tri (op f) Q U.
Proof. intros A f Q H s. unfold op. specialize (H s). destruct (f s). exact H. Qed.

Lemma tri_massert : forall c b (Q : unit -> Prop), (ndebug c = true \/ b = true -> Q tt) -> tri (massert c b) Q U.
Proof. intros c b Q H s. unfold massert. destruct (ndebug c); [auto|]. destruct b; auto. Qed.

Lemma tri_assert_good : forall c (Q : unit -> Prop), Q tt -> tri (assert_good c) Q U.
Proof. intros c Q H s. unfold assert_good. apply (tri_massert c (good s) Q). intros _. exact H. Qed.

Lemma tri_mapM : forall A B (f : A -> M B) (O : A -> Prop) (P : B -> Prop) l, Forall O l ->
  (forall x, O x -> tri (f x) P U) ->
  tri (mapM f l) (fun l' => zlen l' = zlen l /\ Forall P l') U.
Proof.
  intros A B f O P l HO H. induction HO as [|x l Hx HO IH]; cbn [mapM].
  - apply tri_ret. split; [reflexivity|constructor].
  - apply (tri_bind _ _ _ _ P); [apply H; exact Hx|]. intros y Hy.
    eapply tri_bind; [exact IH|]. intros ys [L F]. apply tri_ret. rewrite !zlen_cons.
    split; [lia|constructor; assumption].
Qed.

Lemma tri_iterM : forall S (I : nat -> S -> Prop) n (f : S -> M S),
  (forall i s, (i < n)%nat -> I i s -> tri (f s) (I (i + 1)%nat) U) -> forall s, I O s -> tri (iterM n f s) (I n) U.
Proof.
  intros S I n f H. assert (G : forall k i s, (i + k = n)%nat -> I i s -> tri (iterM k f s) (I n) U).
  { induction k as [|k IH]; intros i s E Hi; cbn [iterM].
    - apply tri_ret. rewrite Nat.add_0_r in E. rewrite <- E. exact Hi.
    - eapply tri_bind; [apply (H i s); [lia|exact Hi]|]. intros a Ha. apply (IH (i + 1)%nat); [lia|exact Ha]. }
  intros s Hs. apply (G n O); [lia|exact Hs].
Qed.
End Rules.

(** ** Ranges of the values read *)

Lemma rd_num_range : forall A (ext : bytes -> A * bool * bytes) (P : A -> Prop) old s,
  (forall b, P (fst (fst (ext b)))) -> P old -> P (fst (rd_num ext old s)).
Proof.
  intros A ext P old s H H0. unfold rd_num. destruct (sentry s) as [ok s1]. destruct ok; [|exact H0].
  specialize (H (rest s1)). destruct (ext (rest s1)) as [[v fl] r]. exact H.
Qed.

Lemma rd_num_opt_range : forall A (ext : bytes -> A * bool * bytes) (P : A -> Prop) old s,
  (forall b, P (fst (fst (ext b)))) -> (forall v, old = Some v -> P v) ->
  forall v, fst (rd_num_opt ext old s) = Some v -> P v.
Proof.
  intros A ext P old s H H0 v. unfold rd_num_opt. destruct (sentry s) as [ok s1]. destruct ok; [|apply H0].
  specialize (H (rest s1)). destruct (ext (rest s1)) as [[w fl] r]. cbn [fst]. intro E. injection E as <-. exact H.
Qed.

Lemma take_digits_digit : forall b, Forall digit (fst (take_digits b)).
Proof.
  induction b as [|x b IH]; cbn [take_digits]; [constructor|].
  destruct (digit_of x) as [d|] eqn:E; [|constructor]. destruct (take_digits b) as [ds r].
  cbn [fst] in *. constructor; [eapply digit_of_range; exact E|exact IH].
Qed.

Lemma extract_int_range : forall b, int_ok (fst (fst (extract_int b))).
Proof.
  intro b. unfold extract_int. destruct (take_sign b) as [neg b1]. destruct (take_digits b1) as [ds b2].
  destruct ds as [|d ds]; [unfold int_ok, INT_MIN, INT_MAX; cbn; lia|].
  set (v := if neg then _ else _).
  destruct (v <? INT_MIN) eqn:E1; [cbn; unfold int_ok, INT_MIN, INT_MAX; lia|].
  destruct (INT_MAX <? v) eqn:E2; cbn [fst]; [unfold int_ok, INT_MIN, INT_MAX; lia|].
  apply Z.ltb_ge in E1, E2. split; assumption.
Qed.

Lemma extract_size_range : forall b, size_ok (fst (fst (extract_size b))).
Proof.
  intro b. unfold extract_size. destruct (take_sign b) as [neg b1].
  pose proof (take_digits_digit b1) as D. destruct (take_digits b1) as [ds b2]. cbn [fst] in D.
  destruct ds as [|d ds]; [unfold size_ok, two64; cbn; lia|].
  set (v := digits_val (d :: ds)). pose proof (digits_val_nonneg _ D) as N. fold v in N.
  destruct (SIZE_MAX <? v) eqn:E; cbn [fst]; [unfold size_ok, two64, SIZE_MAX; lia|].
  apply Z.ltb_ge in E. destruct neg; [apply to_size_range|]. unfold size_ok, two64, SIZE_MAX in *. lia.
Qed.

Lemma round_dec_nonneg : forall m e, 0 <= m -> 0 <= round_dec m e.
Proof.
  intros m e H. unfold round_dec. destruct (0 <=? e) eqn:E; rewrite round_pos_u; apply round_u_nonneg.
  - apply Z.leb_le in E. apply Z.mul_nonneg_nonneg; [apply Z.mul_nonneg_nonneg; [exact H|apply Z.pow_nonneg; lia]|apply Z.pow_nonneg; lia].
  - reflexivity.
  - apply Z.mul_nonneg_nonneg; [exact H|apply Z.pow_nonneg; lia].
  - apply Z.leb_gt in E. apply Z.pow_pos_nonneg; lia.
Qed.

(** Text never yields an infinity or a NaN. *)
Definition dbl_finite (x : dbl) : Prop := size_ok x /\ finite x.

Lemma mk_dbl_finite : forall neg a, 0 <= a < inf_mag -> dbl_finite (mk_dbl neg a).
Proof.
  intros neg a H. unfold dbl_finite, mk_dbl, size_ok, finite, inf_mag, two63, two64 in *.
  change (2 ^ 52) with 4503599627370496. change (2 ^ 11) with 2048. split; [destruct neg; lia|].
  assert (Q : 0 <= a / 4503599627370496 < 2047).
  { split; [apply Z.div_pos; lia|]. apply Z.div_lt_upper_bound; lia. }
  destruct neg.
  - replace (9223372036854775808 + a) with (a + 2048 * 4503599627370496) by lia.
    rewrite Z.div_add by lia. replace (a / 4503599627370496 + 2048) with (a / 4503599627370496 + 1 * 2048) by lia.
    rewrite Z.mod_add by lia. rewrite Z.mod_small; lia.
  - rewrite Z.mod_small; lia.
Qed.

Lemma extract_double_range : forall b, dbl_finite (fst (fst (extract_double b))).
Proof.
  intro b. unfold extract_double. destruct (take_sign b) as [neg b1].
  destruct (scan_float false false false b1) as [t b2].
  destruct (parse_dec t) as [[m e]|] eqn:E.
  - assert (Hm : 0 <= m).
    { unfold parse_dec in E. pose proof (take_digits_digit t) as D1. destruct (take_digits t) as [ip u].
      cbn [fst] in D1.
      assert (D2 : Forall digit (fst (match u with x2e :: u' => take_digits u' | _ => ([], u) end))).
      { destruct u as [|x u]; [constructor|]. destruct x; try constructor. apply take_digits_digit. }
      destruct (match u with x2e :: u' => take_digits u' | _ => ([], u) end) as [fp u2]. cbn [fst] in D2.
      destruct (ip ++ fp) as [|d ds] eqn:EA; [discriminate|].
      destruct (parse_exp u2); [|discriminate]. injection E as <- _. apply digits_val_nonneg.
      rewrite <- EA. apply Forall_app. split; assumption. }
    pose proof (round_dec_nonneg m e Hm) as N.
    destruct (inf_mag <=? round_dec m e) eqn:EI; cbn [fst].
    + apply mk_dbl_finite. unfold max_mag, inf_mag. lia.
    + apply Z.leb_gt in EI. apply mk_dbl_finite. lia.
  - cbn [fst]. apply (mk_dbl_finite false 0). unfold inf_mag. lia.
Qed.

Lemma rd_int_range : forall o s, int_ok o -> int_ok (fst (rd_int o s)).
Proof. intros o s H. exact (rd_num_range _ extract_int int_ok o s extract_int_range H). Qed.
Lemma rd_size_range : forall o s, size_ok o -> size_ok (fst (rd_size o s)).
Proof. intros o s H. exact (rd_num_range _ extract_size size_ok o s extract_size_range H). Qed.
Lemma rd_double_range : forall o s, size_ok o -> size_ok (fst (rd_double o s)).
Proof. intros o s H. exact (rd_num_range _ extract_double size_ok o s (fun b => proj1 (extract_double_range b)) H). Qed.
Lemma rd_double_finite : forall o s, dbl_finite o -> dbl_finite (fst (rd_double o s)).
Proof. intros o s H. exact (rd_num_range _ extract_double dbl_finite o s extract_double_range H). Qed.

Lemma rd_raw_length : forall old s, List.length (fst (fst (rd_raw old s))) = List.length old.
Proof.
  intros old s. unfold rd_raw. destruct (sentry_noskip s) as [ok s1]. destruct ok; [|reflexivity].
  destruct (_ <? _)%nat eqn:E; cbn [fst].
  - rewrite app_length, skipn_length. apply Nat.ltb_lt in E. lia.
  - apply Nat.ltb_ge in E. rewrite firstn_length in *. lia.
Qed.

Lemma rd_raw_size_range : forall o s, size_ok (fst (rd_raw_size o s)).
Proof.
  intros o s. unfold rd_raw_size. pose proof (rd_raw_length (le 8 o) s) as L.
  destruct (rd_raw (le 8 o) s) as [[b k] s']. cbn [fst] in *. rewrite le_length in L.
  pose proof (unle_range b) as R. unfold zlen in R. rewrite L in R. exact R.
Qed.

Lemma rd_raw_int_range : forall o s, int_ok (fst (rd_raw_int o s)).
Proof. intros o s. unfold rd_raw_int. destruct (rd_raw (le 4 o) s) as [[b k] s']. apply to_int_range. Qed.

Lemma rd_raw_int_opt_range : forall o s v, (forall w, o = Some w -> int_ok w) -> fst (rd_raw_int_opt o s) = Some v -> int_ok v.
Proof.
  intros o s v Ho. unfold rd_raw_int_opt. destruct o as [w|].
  - pose proof (rd_raw_int_range w s) as R. destruct (rd_raw_int w s). cbn [fst] in *. intro E. injection E as <-. exact R.
  - destruct (rd_raw (repeat x00 4) s) as [[b k] s']. cbn [fst]. destruct (k =? 4)%nat; [|discriminate].
    intro E. injection E as <-. apply to_int_range.
Qed.

Lemma rd_raw_size_opt_range : forall s v, fst (rd_raw_size_opt None s) = Some v -> size_ok v.
Proof.
  intros s v. unfold rd_raw_size_opt. pose proof (rd_raw_length (repeat x00 8) s) as L.
  destruct (rd_raw (repeat x00 8) s) as [[b k] s']. cbn [fst] in *. destruct (k =? 8)%nat; [|discriminate].
  intro E. injection E as <-. rewrite repeat_length in L.
  pose proof (unle_range b) as R. unfold zlen in R. rewrite L in R. exact R.
Qed.

Definition some {A} (P : A -> Prop) (o : option A) : Prop := forall v, o = Some v -> P v.
Lemma some_none : forall A (P : A -> Prop), some P None.
Proof. intros A P v E. discriminate. Qed.

(** ** Rules for the reads *)

Section Reads.
Variable U : ub -> Prop.

Lemma tri_int : forall o, int_ok o -> tri (op (rd_int o)) int_ok U.
Proof. intros o H. apply tri_op. intro s. apply rd_int_range. exact H. Qed.
Lemma tri_size : forall o, size_ok o -> tri (op (rd_size o)) size_ok U.
Proof. intros o H. apply tri_op. intro s. apply rd_size_range. exact H. Qed.
Lemma tri_double : forall o, size_ok o -> tri (op (rd_double o)) size_ok U.
Proof. intros o H. apply tri_op. intro s. apply rd_double_range. exact H. Qed.
Lemma tri_double_finite : forall o, dbl_finite o -> tri (op (rd_double o)) dbl_finite U.
Proof. intros o H. apply tri_op. intro s. apply rd_double_finite. exact H. Qed.
Lemma tri_raw_int : forall o, tri (op (rd_raw_int o)) int_ok U.
Proof. intros o. apply tri_op. intro s. apply rd_raw_int_range. Qed.
Lemma tri_raw_size : forall o, tri (op (rd_raw_size o)) size_ok U.
Proof. intros o. apply tri_op. intro s. apply rd_raw_size_range. Qed.
Lemma tri_raw_double : forall o, tri (op (rd_raw_double o)) size_ok U.
Proof. intros o. apply tri_op. intro s. apply rd_raw_size_range. Qed.
Lemma tri_int_opt : forall o, some int_ok o -> tri (op (rd_int_opt o)) (some int_ok) U.
Proof. intros o H. apply tri_op. intros s v E. eapply rd_num_opt_range; [apply extract_int_range|exact H|exact E]. Qed.
Lemma tri_size_opt : forall o, some size_ok o -> tri (op (rd_size_opt o)) (some size_ok) U.
Proof. intros o H. apply tri_op. intros s v E. eapply rd_num_opt_range; [apply extract_size_range|exact H|exact E]. Qed.
Lemma tri_raw_int_opt : forall o, some int_ok o -> tri (op (rd_raw_int_opt o)) (some int_ok) U.
Proof. intros o H. apply tri_op. intros s v E. eapply rd_raw_int_opt_range; [exact H|exact E]. Qed.
Lemma tri_raw_size_opt : tri (op (rd_raw_size_opt None)) (some size_ok) U.
Proof. apply tri_op. intros s v E. eapply rd_raw_size_opt_range; exact E. Qed.
Lemma tri_any : forall A (f : istream -> A * istream), tri (op f) (fun _ => True) U.
Proof. intros A f. apply tri_op. intro. exact I. Qed.

Lemma tri_raw_array : forall f (O : Z -> Prop) (P : Z -> Prop) olds, Forall O olds ->
  (forall o, O o -> tri (op (f o)) P U) ->
  tri (rd_raw_array f olds) (fun l => zlen l = zlen olds /\ Forall P l) U.
Proof.
  intros f O P olds HO H. unfold rd_raw_array. eapply tri_bind; [apply tri_any|]. intros _ _.
  exact (tri_mapM U _ _ _ O P olds HO H).
Qed.

Lemma tri_raw_into : forall sz n f (O : Z -> Prop) (P : Z -> Prop) olds, 0 < sz -> n = sz * zlen olds -> Forall O olds ->
  (forall o, O o -> tri (op (f o)) P U) ->
  tri (rd_raw_into sz n f olds) (fun l => zlen l = zlen olds /\ Forall P l) U.
Proof.
  intros sz n f O P olds Hs Hn HO H s. rewrite rd_raw_into_full by assumption. exact (tri_raw_array f O P olds HO H s).
Qed.

Lemma can_hold_inv : forall A c sz n (old : list A), can_hold c sz n old = Ok tt ->
  n <= PTRDIFF_MAX / sz /\ (n <= zlen old \/ n * sz <= mem c).
Proof.
  intros A c sz n old. unfold can_hold. destruct (PTRDIFF_MAX / sz <? n) eqn:E1; [discriminate|].
  apply Z.ltb_ge in E1. destruct (n <=? zlen old) eqn:E2; [apply Z.leb_le in E2; auto|].
  destruct (mem c <? n * sz) eqn:E3; [discriminate|]. apply Z.ltb_ge in E3. auto.
Qed.

Lemma can_hold_not_undef : forall A c sz n (old : list A) u, can_hold c sz n old <> Undef u.
Proof.
  intros A c sz n old u. unfold can_hold. destruct (_ <? n); [discriminate|].
  destruct (n <=? _); [discriminate|]. destruct (_ <? _); discriminate.
Qed.

(** After resize: [n] elements, old or default ones. *)
Lemma tri_resize : forall A c sz (d : A) n old (P : A -> Prop), 0 <= n -> P d -> Forall P old ->
  tri (lift (resize c sz d n old))
    (fun l => zlen l = n /\ Forall P l /\ n <= PTRDIFF_MAX / sz /\ (n <= zlen old \/ n * sz <= mem c)) U.
Proof.
  intros A c sz d n old P Hn Hd Ho. apply tri_lift. unfold resize.
  destruct (can_hold c sz n old) as [[]| |u| |] eqn:E; cbn [obind]; try exact I.
  - apply can_hold_inv in E. destruct E as [E1 E2]. split; [|split; [|split; assumption]].
    + unfold zlen. rewrite app_length, firstn_length, repeat_length. lia.
    + apply Forall_app. split; [|apply Forall_forall; intros x Hx; apply repeat_spec in Hx; subst; exact Hd].
      apply Forall_forall. intros x Hx. rewrite Forall_forall in Ho. apply Ho.
      rewrite <- (firstn_skipn (Z.to_nat n) old). apply in_or_app. left. exact Hx.
  - exfalso. eapply can_hold_not_undef. exact E.
Qed.
End Reads.

(** One step through a loader body; side conditions about old values and
    [U Indeterminate] are left or solved by assumption. *)
Ltac rd_side := first [assumption | apply some_none | exact I | idtac].
Ltac rd :=
  match goal with
  | |- tri (bind (op (rd_int _)) _) _ _ => eapply tri_bind; [apply tri_int; rd_side|intros ? ?]
  | |- tri (bind (op (rd_size _)) _) _ _ => eapply tri_bind; [apply tri_size; rd_side|intros ? ?]
  | |- tri (bind (op (rd_double _)) _) _ _ => eapply tri_bind; [apply tri_double; rd_side|intros ? ?]
  | |- tri (bind (op (rd_raw_int _)) _) _ _ => eapply tri_bind; [apply tri_raw_int|intros ? ?]
  | |- tri (bind (op (rd_raw_size _)) _) _ _ => eapply tri_bind; [apply tri_raw_size|intros ? ?]
  | |- tri (bind (op (rd_raw_double _)) _) _ _ => eapply tri_bind; [apply tri_raw_double|intros ? ?]
  | |- tri (bind (op (rd_int_opt _)) _) _ _ => eapply tri_bind; [apply tri_int_opt; rd_side|intros ? ?]
  | |- tri (bind (op (rd_size_opt _)) _) _ _ => eapply tri_bind; [apply tri_size_opt; rd_side|intros ? ?]
  | |- tri (bind (op (rd_raw_int_opt _)) _) _ _ => eapply tri_bind; [apply tri_raw_int_opt; rd_side|intros ? ?]
  | |- tri (bind (op (rd_raw_size_opt _)) _) _ _ => eapply tri_bind; [apply tri_raw_size_opt|intros ? ?]
  | H : some ?P ?o |- tri (bind (use ?o) _) _ _ =>
      apply (tri_bind _ _ _ _ _ P); [apply tri_use; [exact H|rd_side]|intros ? ?]
  | |- tri (bind (op _) _) _ _ => eapply tri_bind; [apply tri_any|intros ? _]
  | |- tri (bind (assert_good _) _) _ _ => apply (tri_bind _ _ _ _ _ (fun _ => True)); [apply tri_assert_good; exact I|intros ? _]
  | |- tri (bind (massert _ _) _) _ _ => apply (tri_bind _ _ _ _ _ (fun _ => True)); [apply tri_massert; intros _; exact I|intros ? _]
  | |- tri (throw _) _ _ => apply tri_throw
  | |- tri (bind (throw _) _) _ _ => intro; exact I
  end.

(** From [tri] to the partial correctness of Hoare.v. *)
Definition any_ub : ub -> Prop := fun _ => True.
Lemma tri_post : forall A (m : M A) Q, tri m Q any_ub -> forall s a s', m s = Ok (a, s') -> Q a.
Proof. intros A m Q H s a s' E. specialize (H s). rewrite E in H. exact H. Qed.
