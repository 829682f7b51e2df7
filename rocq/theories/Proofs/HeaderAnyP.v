(** The $MeshFormat gate on any numerals, also those that do not fit an int. *)

From Verif Require Import Model.Save Spec.Words Spec.Steps Spec.Numerals Proofs.BytesP Proofs.RtBase
  Proofs.ShowP Proofs.Fuel Proofs.Reach Proofs.TextP Proofs.HeaderP Proofs.NumeralsP.

Ltac Zify.zify_post_hook ::= idtac.

(** What is stored for the number z: the nearest int. *)
Definition kept (z : Z) : Z := if z <? INT_MIN then INT_MIN else if INT_MAX <? z then INT_MAX else z.
Definition in_int (z : Z) : bool := negb (z <? INT_MIN) && negb (INT_MAX <? z).

Lemma in_int_kept : forall z, in_int z = true -> kept z = z.
Proof.
  intro z. unfold in_int, kept. destruct (z <? INT_MIN); [discriminate|]. destruct (INT_MAX <? z); [discriminate|reflexivity].
Qed.
Lemma kept_range : forall z, int_ok (kept z).
Proof.
  intro z. unfold kept, int_ok, INT_MIN, INT_MAX. destruct (z <? _) eqn:A; [lia|]. destruct (_ <? z) eqn:B; [lia|].
  apply Z.ltb_ge in A, B. lia.
Qed.
Lemma kept_not : forall z n, INT_MIN < n < INT_MAX -> z <> n -> kept z <> n.
Proof. intros z n R N. unfold kept. destruct (z <? _); [lia|]. destruct (_ <? z); lia. Qed.

Lemma unfit_kept : forall z, in_int z = false -> kept z <> 0.
Proof.
  intros z F. unfold in_int, kept in *. destruct (z <? _); [discriminate|].
  destruct (_ <? z); discriminate.
Qed.

Lemma rd_int_any : forall z n old w r, integer n z -> ws w -> ends_number r ->
  rd_int old (opened (w ++ n ++ r)) =
    (kept z, if in_int z then at_end r (opened r) else set_fail (at_end r (opened r))).
Proof.
  intros z n old w r H Hw Hr. unfold rd_int, rd_num.
  destruct (integer_first n z H) as (c & t & E & Hc). rewrite E. cbn [app]. rewrite sentry_ws by assumption.
  cbn [opened IStream.rest]. change (c :: t ++ r) with ((c :: t) ++ r). rewrite <- E. clear c t E Hc.
  destruct H as (s & minus & t & k & m & -> & S & D & K & ->).
  destruct (digits_some t k m D K) as (d & ds & -> & F & <-).
  pose proof (chr_not_sign d (Forall_inv F)) as (N1 & N2 & _).
  unfold extract_int. rewrite <- app_assoc. change (chrs (d :: ds) ++ r) with (digit_chr d :: chrs ds ++ r).
  rewrite (take_sign_app s minus) by assumption. change (digit_chr d :: chrs ds ++ r) with (chrs (d :: ds) ++ r).
  rewrite take_digits_chrs; [|exact F|exact Hr].
  change (if minus then - digits_val (d :: ds) else digits_val (d :: ds)) with (signed minus (digits_val (d :: ds))).
  unfold kept, in_int. destruct (_ <? INT_MIN); [destruct r; reflexivity|].
  destruct (INT_MAX <? _); destruct r; reflexivity.
Qed.

Lemma rd_int_failed : forall old s, failb s = true -> exists s', rd_int old s = (old, s') /\ failb s' = true.
Proof.
  intros old [r e f] H. cbn [failb] in H. subst f. unfold rd_int, rd_num, sentry, good. cbn [failb eofb negb andb].
  rewrite andb_false_r. cbn. eexists. split; reflexivity.
Qed.

(** The header after its three words. *)
Definition after_words (v : bytes) (ft ds : Z) (spec : MshSpec) : M MshSpec :=
  if bytes_eqb v v41s && negb (to_size ds =? 8) then throw (data_size_unsupported ds) else
    bind (if negb (ft =? 0) then
       bind (op eat_all) (fun _ => bind (op (rd_raw_int 0)) (fun one =>
       if negb (one =? 1) then throw (endianness_unsupported v) else ret tt)) else ret tt)
    (fun _ => ret (set_format {| version := v; file_type := ft; data_size := ds |} spec)).

Lemma format_tail : forall spec, load_mesh_format spec =
  (v <- op (rd_token (version (mesh_format spec))) ;;
   if negb (bytes_eqb v v22s) && negb (bytes_eqb v v41s) then throw (version_unsupported v) else
   ft <- op (rd_int (file_type (mesh_format spec))) ;;
   ds <- op (rd_int (data_size (mesh_format spec))) ;;
   after_words v ft ds spec).
Proof. reflexivity. Qed.

Lemma tail_failed : forall v ft ds spec s, failb s = true -> ft <> 0 ->
  exists m, after_words v ft ds spec s = Throw (UnsupportedFeature m).
Proof.
  intros v ft ds spec [r e f] H N. cbn [failb] in H. subst f. unfold after_words.
  destruct (_ && _); [eexists; reflexivity|]. apply Z.eqb_neq in N. rewrite N. cbn [negb].
  unfold bind, op, eat_all, peek, sentry_noskip, good. cbn [failb eofb negb]. rewrite andb_false_r.
  cbn [eat_all_loop is_eaten fst snd IStream.rest]. destruct r; destruct e; eexists; reflexivity.
Qed.


Lemma header_numbers : forall spec v w1 w2 w3 nt nd t d r,
  v = str "2.2" \/ v = str "4.1" ->
  ws w1 -> ws w2 -> w2 <> [] -> ws w3 -> w3 <> [] -> integer nt t -> integer nd d -> ends_number r ->
  forall P : outcome (MshSpec * istream) -> Prop,
  (in_int t = false -> forall m, P (Throw (UnsupportedFeature m))) ->
  (in_int t = true -> P (after_words v t (kept d) spec
    (if in_int d then at_end r (opened r) else set_fail (at_end r (opened r))))) ->
  P (load_mesh_format spec (opened (w1 ++ v ++ w2 ++ nt ++ w3 ++ nd ++ r))).
Proof.
  intros spec v w1 w2 w3 nt nd t d r Hv W1 W2 N2 W3 N3 Ht Hd Hr P Pf Pt.
  rewrite format_tail. unfold bind at 1, op at 1.
  rewrite rd_token_text;
    [|assumption|destruct Hv as [->| ->]; (split; [discriminate|repeat constructor])
     |destruct w2; [congruence|inversion W2; assumption]].
  replace (negb (bytes_eqb v v22s) && negb (bytes_eqb v v41s)) with false
    by (destruct Hv as [->| ->]; reflexivity). cbn iota.
  destruct w2 as [|x w2]; [congruence|]. cbn [app]. rewrite at_end_cons.
  change (with_rest ?b (opened ?x)) with (opened b).
  unfold bind at 1, op at 1. change (x :: w2 ++ ?y) with ((x :: w2) ++ y).
  rewrite (rd_int_any t nt); [|assumption|assumption|destruct w3 as [|y w3]; [congruence|]; apply ws_not_digit; inversion W3; assumption].
  destruct w3 as [|y w3]; [congruence|]. cbn [app]. rewrite at_end_cons.
  change (with_rest ?b (opened ?x)) with (opened b).
  destruct (in_int t) eqn:F.
  - rewrite (in_int_kept t F). unfold bind at 1, op at 1. change (y :: w3 ++ ?z) with ((y :: w3) ++ z).
    rewrite (rd_int_any d nd) by assumption. apply Pt. reflexivity.
  - unfold bind at 1, op at 1.
    destruct (rd_int_failed (data_size (mesh_format spec)) (set_fail (opened (y :: w3 ++ nd ++ r))) eq_refl) as (s' & -> & Hs).
    pose proof (tail_failed v (kept t) (data_size (mesh_format spec)) spec s' Hs) as T.
    pose proof (unfit_kept t F) as N.
    destruct (T N) as (m & ->). apply Pf. reflexivity.
Qed.

Lemma size_not8 : forall z, int_ok z -> z <> 8 -> to_size z =? 8 = false.
Proof.
  intros z H N. apply Z.eqb_neq. intro E. unfold to_size in E. unfold int_ok, INT_MIN, INT_MAX in H.
  destruct (Z_lt_ge_dec z 0) as [L|L].
  - rewrite <- (Z_mod_plus_full z 1) in E. rewrite Z.mod_small in E by (unfold two64; lia). unfold two64 in E. lia.
  - rewrite Z.mod_small in E by (unfold two64; lia). lia.
Qed.

(** What the header says, told from the numbers in it. *)
Lemma size_says : forall c b spec w1 w2 w3 nt nd t d r,
  meets c b (str "$MeshFormat") spec
    (opened (w1 ++ str "4.1" ++ w2 ++ nt ++ w3 ++ nd ++ r)) ->
  ws w1 -> ws w2 -> w2 <> [] -> ws w3 -> w3 <> [] -> integer nt t -> integer nd d ->
  ends_number r -> d <> 8 ->
  (exists m, load_msh c b = Throw (UnsupportedFeature m)) /\
  (in_int t = true -> load_msh c b = Throw (data_size_unsupported (kept d))).
Proof.
  intros c b spec w1 w2 w3 nt nd t d r HM W1 W2 N2 W3 N3 Ht Hd Hr N.
  match goal with |- ?G => assert (X : load_mesh_format spec (opened (w1 ++ str "4.1" ++ w2 ++ nt ++ w3 ++ nd ++ r)) =
    load_mesh_format spec (opened (w1 ++ str "4.1" ++ w2 ++ nt ++ w3 ++ nd ++ r)) -> G); [|exact (X eq_refl)] end.
  apply (header_numbers spec (str "4.1") w1 w2 w3 nt nd t d r) with (P := fun o => load_mesh_format spec (opened (w1 ++ str "4.1" ++ w2 ++ nt ++ w3 ++ nd ++ r)) = o ->
    (exists m, load_msh c b = Throw (UnsupportedFeature m)) /\ (in_int t = true -> load_msh c b = Throw (data_size_unsupported (kept d))));
    auto.
  - intros F m E. rewrite F. split; [exists m|discriminate]. eapply meets_fails; [exact HM|reflexivity|].
    change (dispatch c (str "$MeshFormat") spec) with (load_mesh_format spec). rewrite E. reflexivity.
  - intros _ E. assert (X : load_msh c b = Throw (data_size_unsupported (kept d))); [|split; [eexists; exact X|intros _; exact X]].
    eapply meets_fails; [exact HM|reflexivity|].
    change (dispatch c (str "$MeshFormat") spec) with (load_mesh_format spec). rewrite E. unfold after_words.
    change (bytes_eqb (str "4.1") v41s) with true. cbn [andb].
    rewrite size_not8; [reflexivity|apply kept_range|apply kept_not; [unfold INT_MIN, INT_MAX; lia|exact N]].
Qed.

Lemma marker_says : forall c b spec v w1 w2 w3 w4 nt nd t d r,
  meets c b (str "$MeshFormat") spec
    (opened (w1 ++ v ++ w2 ++ nt ++ w3 ++ nd ++ w4 ++ r)) ->
  v = str "2.2" \/ v = str "4.1" ->
  blank w1 -> blank w2 -> w2 <> [] -> blank w3 -> w3 <> [] -> integer nt t -> integer nd d ->
  t <> 0 -> Forall gap w4 -> ends_number (w4 ++ r) ->
  (forall x r', r = x :: r' -> ~ gap x) -> unle (firstn 4 r) <> 1 ->
  (exists m, load_msh c b = Throw (UnsupportedFeature m)) /\
  (in_int t = true -> in_int d = true -> v = str "2.2" \/ d = 8 -> load_msh c b = Throw (endianness_unsupported v)).
Proof.
  intros c b spec v w1 w2 w3 w4 nt nd t d r HM Hv W1 W2 N2 W3 N3 Ht Hd Nt W4 Hd4 Hr N1.
  assert (R : forall e, load_mesh_format spec (opened (w1 ++ v ++ w2 ++ nt ++ w3 ++ nd ++ w4 ++ r)) = Throw e -> load_msh c b = Throw e).
  { intros e E. eapply meets_fails; [exact HM|reflexivity|].
    change (dispatch c (str "$MeshFormat") spec) with (load_mesh_format spec). rewrite E. reflexivity. }
  match goal with |- ?G => assert (X : load_mesh_format spec (opened (w1 ++ v ++ w2 ++ nt ++ w3 ++ nd ++ w4 ++ r)) =
    load_mesh_format spec (opened (w1 ++ v ++ w2 ++ nt ++ w3 ++ nd ++ w4 ++ r)) -> G); [|exact (X eq_refl)] end.
  apply (header_numbers spec v w1 w2 w3 nt nd t d (w4 ++ r)) with (P := fun o =>
    load_mesh_format spec (opened (w1 ++ v ++ w2 ++ nt ++ w3 ++ nd ++ w4 ++ r)) = o ->
    (exists m, load_msh c b = Throw (UnsupportedFeature m)) /\
    (in_int t = true -> in_int d = true -> v = str "2.2" \/ d = 8 -> load_msh c b = Throw (endianness_unsupported v)));
    auto.
  { intros F m E. rewrite F. split; [exists m; apply R; exact E|discriminate]. }
  intros F E.
  destruct (in_int d) eqn:Fd.
  2: { split; [|discriminate]. destruct (tail_failed v t (kept d) spec (set_fail (at_end (w4 ++ r) (opened (w4 ++ r)))) eq_refl Nt) as (m & X).
       exists m. apply R. rewrite E. exact X. }
  assert (Q : bytes_eqb v v41s && negb (to_size (kept d) =? 8) = false ->
    failed (after_words v t (kept d) spec (at_end (w4 ++ r) (opened (w4 ++ r)))) (Throw (endianness_unsupported v) : outcome MshSpec)).
  { intro B. unfold after_words. rewrite B. apply Z.eqb_neq in Nt. rewrite Nt. cbn [negb].
    assert (Q : forall s, fst (rd_raw_int 0 s) <> 1 ->
      failed (bind (one <- op (rd_raw_int 0) ;; (if negb (one =? 1) then throw (endianness_unsupported v) else ret tt))
        (fun _ => ret (set_format {| version := v; file_type := t; data_size := kept d |} spec)) s)
        (Throw (endianness_unsupported v) : outcome MshSpec)).
    { intros s H. unfold bind, op. destruct (rd_raw_int 0 s) as [one s']. cbn [fst] in H.
      apply Z.eqb_neq in H. rewrite H. reflexivity. }
    unfold bind at 1. unfold bind at 1. unfold op at 1.
    destruct (w4 ++ r) as [|z q] eqn:E4.
    - apply app_eq_nil in E4. destruct E4 as [-> ->].
      cbn. reflexivity.
    - rewrite at_end_cons. change (with_rest ?b (opened ?x)) with (opened b). rewrite <- E4.
      rewrite eat_all_run.
      + specialize (Q (at_end r (opened r))). unfold bind at 1 in Q. unfold bind. apply Q.
        destruct r as [|z' r']; [cbn; discriminate|]. rewrite at_end_cons.
        change (with_rest ?b (opened ?x)) with (opened b). rewrite rd_raw_int_zero.
        pose proof (unle_firstn4 (z' :: r')) as B'. unfold to_int. rewrite Z.mod_small by exact B'.
        destruct (_ <? _); [exact N1|]. unfold two32 in *. lia.
      + eapply Forall_impl; [|exact W4]. intros x Hx. apply gap_eaten. exact Hx.
      + destruct r as [|x r]; [exact I|]. specialize (Hr x r eq_refl). rewrite gap_eaten in Hr.
        destruct (is_eaten (Some x)); [congruence|reflexivity]. }
  rewrite <- E in Q.
  assert (X : bytes_eqb v v41s && negb (to_size (kept d) =? 8) = false -> load_msh c b = Throw (endianness_unsupported v)).
  { intro B. specialize (Q B). destruct (load_mesh_format spec _) as [|e| | |]; try contradiction Q. cbn [failed] in Q. subst e. apply R. reflexivity. }
  destruct (bytes_eqb v v41s && negb (to_size (kept d) =? 8)) eqn:B.
  - split.
    + eexists. apply R. rewrite E. unfold after_words. rewrite B. reflexivity.
    + intros _ _ [-> | ->]; exfalso; [discriminate B|].
      change (negb (to_size (kept 8) =? 8)) with false in B. rewrite andb_false_r in B. discriminate B.
  - split; [eexists; apply X; reflexivity|intros; apply X; reflexivity].
Qed.

(** ** Numerals that are written *)

Lemma chr_digit_is : forall d, digit d -> digit_is (digit_chr d) d.
Proof.
  intros d H. split; [unfold digit in H; lia|].
  destruct (digit_cases d H) as [->|[->|[->|[->|[->|[->|[->|[->|[->| ->]]]]]]]]]; reflexivity.
Qed.

Lemma digits_chrs : forall ds, Forall digit ds -> digits (chrs ds) (zlen ds) (digits_val ds).
Proof.
  induction ds as [|d ds IH] using rev_ind; intro F; [constructor|].
  apply Forall_app in F as [F D]. apply Forall_inv in D.
  unfold chrs in *. rewrite map_app. cbn [map]. rewrite digits_val_app.
  replace (zlen (ds ++ [d])) with (zlen ds + 1) by (unfold zlen; rewrite app_length; cbn [List.length]; lia).
  change (10 ^ zlen [d]) with 10. change (digits_val [d]) with d.
  replace (digits_val ds * 10 + d) with (10 * digits_val ds + d) by lia.
  apply digits_snoc; [apply IH; exact F|apply chr_digit_is; exact D].
Qed.

Lemma integer_show : forall z, integer (show_Z z) z.
Proof.
  assert (D : forall n, 0 <= n -> exists k, digits (show_nonneg n) k n /\ 1 <= k).
  { intros n H. exists (zlen (dec_digits n)). split.
    - pose proof (digits_chrs (dec_digits n) (dec_digits_digit n H)) as D. rewrite dec_digits_val in D by exact H. exact D.
    - pose proof (dec_digits_nonnil n). unfold zlen. destruct (dec_digits n); [congruence|]. cbn [List.length]. lia. }
  intro z. unfold show_Z. destruct (z <? 0) eqn:E; [apply Z.ltb_lt in E|apply Z.ltb_ge in E].
  - destruct (D (- z) ltac:(lia)) as (k & Dk & K).
    exists [x2d], true, (show_nonneg (- z)), k, (- z). repeat split; [constructor|exact Dk|exact K|cbn; lia].
  - destruct (D z ltac:(lia)) as (k & Dk & K).
    exists [], false, (show_nonneg z), k, z. repeat split; [constructor|exact Dk|exact K].
Qed.

Lemma int_in : forall z, int_ok z -> in_int z = true.
Proof.
  intros z (A & B). unfold in_int. destruct (Z.ltb_spec z INT_MIN); [lia|]. destruct (Z.ltb_spec INT_MAX z); [lia|reflexivity].
Qed.
Lemma kept_clamp : forall z, Z.max INT_MIN (Z.min INT_MAX z) = kept z.
Proof.
  intro z. unfold kept, INT_MIN, INT_MAX.
  destruct (Z.ltb_spec z (-2147483648)); [lia|]. destruct (Z.ltb_spec 2147483647 z); lia.
Qed.
