(** The text of an object shows its attributes, and a spec's text tells its outline. *)

From Verif Require Import Spec.Python Proofs.BytesP Proofs.RtBase Proofs.NumeralsP Proofs.ShowP
  Proofs.HeaderP Proofs.Utf8P Proofs.PyFloatP Proofs.PythonP.

Ltac Zify.zify_post_hook ::= idtac.

(** ** Attributes *)

Lemma size_shortest : forall A (l : list A), shortest (size l) (Z.of_nat (List.length l)).
Proof. intros A l. apply (to_string_shortest (zlen l)). Qed.
Lemma size_map : forall A B (f : A -> B) l, shortest (size l) (Z.of_nat (List.length (map f l))).
Proof. intros A B f l. rewrite map_length. apply size_shortest. Qed.

Lemma items_shown : forall A (f : A -> option bytes) (o : A -> pyobj) l t, (forall a, py_repr (o a) = f a) ->
  py_list (map f l) = Some t ->
  exists ts, Forall2 (fun o t => py_repr o = Some t) (map o l) ts /\ t = str "[" ++ joined ts ++ str "]".
Proof.
  intros A f o l t Ho E.
  assert (S : exists ts, map f l = map Some ts).
  { unfold py_list in E. destruct (py_items (map f l)) eqn:P; [|discriminate]. clear E.
    assert (N : ~ In None (map f l)) by (intro N; rewrite (py_items_none _ N) in P; discriminate). clear P.
    induction l as [|a l IH]; [exists []; reflexivity|]. cbn [map] in *.
    destruct IH as (ts & IH); [intro N'; apply N; right; exact N'|].
    destruct (f a) as [x|] eqn:Ea; [|elim N; left; reflexivity]. exists (x :: ts). cbn [map]. congruence. }
  destruct S as (ts & S). unfold py_list in E. rewrite S, py_items_some in E. cbn [pbind] in E.
  exists ts. split; [|congruence]. clear E. revert ts S. induction l as [|a l IH]; intros [|x ts] S; try discriminate; [constructor|].
  cbn [map] in *. injection S as S1 S2. constructor; [rewrite Ho; exact S1|apply IH; exact S2].
Qed.

Lemma py_str_same : forall b t, py_str b = Some t -> t = b.
Proof. intros b t. unfold py_str. destruct (utf8_ok b); congruence. Qed.

Ltac shown := eexists; split;
  [repeat (apply Forall2_cons; [eexists; split; [cbn [displays snd fst]|reflexivity]|]); [..|apply Forall2_nil]
  |cbn [joined fst]; rewrite <- ?app_assoc].
Ltac disp := first [apply size_map | apply size_shortest | apply to_string_shortest | reflexivity].

Theorem repr_shown : forall o t, floats_ok o -> py_repr o = Some t -> shown_as o t.
Proof.
  intros [f|b|n|b|e|h|e|d|p|e|e|e|e|g|s] t FO; cbn [py_repr]; intro E;
    try (apply py_str_same in E; subst t);
    unfold shown_as, floats_ok in *; cbn [attributes box filter hidden fst snd negb String.eqb Ascii.eqb Bool.eqb whole class_name] in *.
  - shown; [disp..|]. reflexivity.
  - shown; [disp..|]. reflexivity.
  - shown; [disp..|]. reflexivity.
  - shown; [disp..|]. reflexivity.
  - shown; [disp..|]. reflexivity.
  - shown; [disp..|]. reflexivity.
  - shown; [disp..|]. reflexivity.
  - unfold repr_data in E. destruct (repr_header (d_header d)) as [h|] eqn:Eh; [|discriminate].
    destruct (py_list (map repr_entry (d_entries d))) as [l|] eqn:El; [|discriminate]. cbn [pbind] in E.
    apply py_str_same in E. subst t.
    pose proof (items_shown _ repr_entry OEntry (d_entries d) l (fun _ => eq_refl) El) as It.
    shown; [exact Eh|exact It|]. reflexivity.
  - shown; try disp; try (apply float_shown; eapply FO; unfold box; cbn [In]; eauto 10; fail).
  - shown; try disp; try (apply float_shown; eapply FO; unfold box; cbn [In]; eauto 20; fail).
  - shown; try disp; try (apply float_shown; eapply FO; unfold box; cbn [In]; eauto 20; fail).
  - shown; try disp; try (apply float_shown; eapply FO; unfold box; cbn [In]; eauto 20; fail).
  - shown; [disp..|]. reflexivity.
  - shown; [disp..|]. reflexivity.
  - unfold repr_spec in E.
    destruct (repr_format (mesh_format s)) as [f|] eqn:Ef; [|discriminate].
    destruct (repr_nodes (nodes s)) as [n|] eqn:En; [|discriminate].
    destruct (repr_elements (elements s)) as [e|] eqn:Ee; [|discriminate].
    destruct (repr_entities (entities s)) as [en|] eqn:Een; [|discriminate].
    destruct (py_list (map repr_group (physical_groups s))) as [g|] eqn:Eg; [|discriminate].
    destruct (py_list (map repr_data (node_data s))) as [nd|] eqn:End; [|discriminate].
    destruct (py_list (map repr_data (element_data s))) as [ed|] eqn:Eed; [|discriminate].
    destruct (py_list (map repr_data (element_node_data s))) as [de|] eqn:Ede; [|discriminate].
    cbn [pbind] in E. apply py_str_same in E. subst t.
    pose proof (items_shown _ repr_group OGroup _ _ (fun _ => eq_refl) Eg) as Ig.
    pose proof (items_shown _ repr_data OData _ _ (fun _ => eq_refl) End) as I1.
    pose proof (items_shown _ repr_data OData _ _ (fun _ => eq_refl) Eed) as I2.
    pose proof (items_shown _ repr_data OData _ _ (fun _ => eq_refl) Ede) as I3.
    shown; [exact Ef|exact En|exact Ee|exact Een|exact Ig|exact I1|exact I2|exact I3|]. reflexivity.
Qed.

(** ** Unambiguous texts *)

(** Reads an integer of any size. *)
Definition scan (b : bytes) : Z * bytes :=
  let (neg, b1) := take_sign b in
  let (ds, b2) := take_digits b1 in
  (if neg then - digits_val ds else digits_val ds, b2).

Lemma scan_num : forall z c r, digit_of c = None -> scan (to_string z ++ c :: r) = (z, c :: r).
Proof.
  intros z c r Hc. unfold to_string, show_Z, scan. destruct (z <? 0) eqn:E.
  - apply Z.ltb_lt in E. cbn [app take_sign]. unfold show_nonneg.
    rewrite take_digits_app by (try apply dec_digits_digit; auto; lia).
    rewrite dec_digits_val by lia. f_equal. lia.
  - apply Z.ltb_ge in E. unfold show_nonneg.
    destruct (show_nonneg_cons z) as (d & ds & Ed & Hd & Hds); [lia|]. rewrite Ed. cbn [map app].
    rewrite take_sign_digit by exact Hd.
    change (digit_chr d :: map digit_chr ds ++ c :: r) with (map digit_chr (d :: ds) ++ c :: r). rewrite <- Ed.
    rewrite take_digits_app by (try apply dec_digits_digit; auto; lia).
    rewrite dec_digits_val by lia. reflexivity.
Qed.

Definition stops (t : bytes) : bool :=
  match t with c :: _ => match digit_of c with None => true | Some _ => false end | [] => false end.

Lemma num_unique : forall t z z' r r', stops t = true ->
  to_string z ++ t ++ r = to_string z' ++ t ++ r' -> z = z' /\ r = r'.
Proof.
  intros [|c t] z z' r r' Hc E; [discriminate|]. cbn [stops] in Hc. destruct (digit_of c) eqn:D; [discriminate|].
  apply (f_equal scan) in E. cbn [app] in E. rewrite !scan_num in E by assumption.
  split; [congruence|]. apply (app_inv_head t). congruence.
Qed.

Lemma until_unique : forall (c : byte) (t v v' r r' : bytes), ~ In c v -> ~ In c v' ->
  v ++ (c :: t) ++ r = v' ++ (c :: t) ++ r' -> v = v' /\ r = r'.
Proof.
  intros c t. induction v as [|x v IH]; intros [|y v'] r r' H H' E; cbn [app In] in *.
  - split; [reflexivity|]. apply (app_inv_head t). congruence.
  - injection E as E1 E2. elim H'. left. congruence.
  - injection E as E1 E2. elim H. left. congruence.
  - injection E as E1 E2. destruct (IH v' r r') as [-> ->]; [tauto|tauto|exact E2|]. split; [congruence|reflexivity].
Qed.

(** Nothing that follows can change what the text of [a] tells. *)
Definition unique {A B} (P : A -> Prop) (t : A -> bytes) (out : A -> B) : Prop :=
  forall a a' r r', P a -> P a' -> t a ++ r = t a' ++ r' -> out a = out a' /\ r = r'.

Ltac lit E := match type of E with @app ?A ?x _ = @app ?A ?x _ => apply (app_inv_head x) in E end.
Ltac num E H := match type of E with
  @app byte (to_string ?a) (@app byte ?t ?r) = @app byte (to_string ?b) _ => apply (num_unique t a b r) in E; [|reflexivity]; destruct E as [H E]
  end.

Lemma nodes_unique : unique (fun _ => True) t_nodes (fun n => (n_num_blocks n, n_num_nodes n, n_min n, n_max n)).
Proof.
  intros n n' r r' _ _ E. unfold t_nodes in E. rewrite <- !app_assoc in E.
  lit E. num E H1. num E H2. num E H3. num E H4. split; [congruence|exact E].
Qed.

Lemma elements_unique :
  unique (fun _ => True) t_elements (fun e => (e_num_blocks e, e_num_elements e, e_min e, e_max e)).
Proof.
  intros n n' r r' _ _ E. unfold t_elements in E. rewrite <- !app_assoc in E.
  lit E. num E H1. num E H2. num E H3. num E H4. split; [congruence|exact E].
Qed.

Lemma entities_unique : unique (fun _ => True) t_entities
  (fun e => (zlen (points e), zlen (curves_e e), zlen (surfaces_e e), zlen (volumes_e e))).
Proof.
  intros n n' r r' _ _ E. unfold t_entities, size in E. rewrite <- !app_assoc in E.
  lit E. num E H1. num E H2. num E H3. num E H4. split; [congruence|exact E].
Qed.

Lemma header_unique : unique (fun _ => True) t_header
  (fun h => (zlen (string_tags h), zlen (real_tags h), zlen (int_tags h))).
Proof.
  intros n n' r r' _ _ E. unfold t_header, size in E. rewrite <- !app_assoc in E.
  lit E. num E H1. num E H2. num E H3. split; [congruence|exact E].
Qed.

Lemma entry_unique : unique (fun _ => True) t_entry (fun e => (de_tag e, de_npe e, zlen (de_data e))).
Proof.
  intros n n' r r' _ _ E. unfold t_entry, size in E. rewrite <- !app_assoc in E.
  lit E. num E H1. num E H2. num E H3. split; [congruence|exact E].
Qed.

Lemma format_unique : unique (fun f => ~ In x2c (version f)) t_format (fun f => f).
Proof.
  intros [v x y] [v' x' y'] r r' P P' E. unfold t_format in E. cbn [version file_type data_size] in *.
  rewrite <- !app_assoc in E. lit E.
  apply (until_unique x2c (str " file_type=") v v' _ _ P P') in E. destruct E as [H1 E].
  num E H2. num E H3. split; [congruence|exact E].
Qed.

Lemma group_unique : unique (fun g => ~ In x29 (pg_name g)) t_group (fun g => g).
Proof.
  intros [x y v] [x' y' v'] r r' P P' E. unfold t_group in E. cbn [pg_dim pg_tag pg_name] in *.
  rewrite <- !app_assoc in E. lit E. num E H1. num E H2.
  apply (until_unique x29 [] v v' _ _ P P') in E. destruct E as [H3 E]. split; [congruence|exact E].
Qed.

(** Items do not start with a closing bracket. *)
Lemma list_unique : forall A B (P : A -> Prop) (t : A -> bytes) (out : A -> B),
  unique P t out -> (forall a, exists c r, t a = c :: r /\ c <> x5d) ->
  unique (Forall P) (fun l => t_list (map t l)) (map out).
Proof.
  intros A B P t out U N.
  assert (J : forall l l' r r', Forall P l -> Forall P l' ->
            joined (map t l) ++ x5d :: r = joined (map t l') ++ x5d :: r' -> map out l = map out l' /\ r = r').
  { induction l as [|a l IH]; intros [|a' l'] r r' Pl Pl' E.
    - split; [reflexivity|]. cbn in E. congruence.
    - exfalso. destruct (N a') as (c & q & Eq & Nc). cbn [map joined app] in E.
      destruct (map t l'); rewrite Eq in E; cbn [app] in E; congruence.
    - exfalso. destruct (N a) as (c & q & Eq & Nc). cbn [map joined app] in E.
      destruct (map t l); rewrite Eq in E; cbn [app] in E; congruence.
    - apply Forall_cons_iff in Pl, Pl'. destruct Pl as [Pa Pl]. destruct Pl' as [Pa' Pl'].
      destruct l as [|b l]; destruct l' as [|b' l'].
      + cbn [map joined] in E. apply U in E; [|assumption..]. destruct E as [H E]. cbn [map]. split; congruence.
      + exfalso. change (map t [a]) with [t a] in E. cbn [joined] in E.
        change (joined (map t (a' :: b' :: l'))) with (t a' ++ str ", " ++ joined (map t (b' :: l'))) in E.
        rewrite <- app_assoc in E. apply U in E; [|assumption..]. destruct E as [_ E]. cbn [str app] in E. discriminate E.
      + exfalso. change (map t [a']) with [t a'] in E. cbn [joined] in E.
        change (joined (map t (a :: b :: l))) with (t a ++ str ", " ++ joined (map t (b :: l))) in E.
        rewrite <- app_assoc in E. apply U in E; [|assumption..]. destruct E as [_ E]. cbn [str app] in E. discriminate E.
      + change (joined (map t (a :: b :: l))) with (t a ++ str ", " ++ joined (map t (b :: l))) in E.
        change (joined (map t (a' :: b' :: l'))) with (t a' ++ str ", " ++ joined (map t (b' :: l'))) in E.
        rewrite <- !app_assoc in E. apply U in E; [|assumption..]. destruct E as [H E]. lit E.
        apply IH in E; [|assumption..]. destruct E as [H' E]. cbn [map] in *. split; congruence. }
  intros l l' r r' Pl Pl' E. unfold t_list in E. rewrite <- !app_assoc in E. lit E.
  exact (J l l' r r' Pl Pl' E).
Qed.

Lemma all_true : forall A (l : list A), Forall (fun _ => True) l.
Proof. intros A l. induction l; constructor; auto. Qed.

Lemma starts : forall (x : string) (r : bytes),
  match str x with c :: _ => negb (Byte.eqb c x5d) | [] => false end = true -> exists c q, str x ++ r = c :: q /\ c <> x5d.
Proof.
  intros x r. destruct (str x) as [|c q]; [discriminate|]. intro H. exists c, (q ++ r). split; [reflexivity|].
  intros ->. discriminate.
Qed.

Lemma data_unique : unique (fun _ => True) t_data outline_data.
Proof.
  intros d d' r r' _ _ E. unfold t_data in E. rewrite <- !app_assoc in E. lit E.
  apply header_unique in E; [|exact I|exact I]. destruct E as [H1 E]. lit E.
  apply (list_unique _ _ _ _ _ entry_unique) in E; [|intro; apply starts; reflexivity|apply all_true|apply all_true].
  destruct E as [H2 E]. lit E. unfold outline_data. split; [congruence|exact E].
Qed.

Theorem spec_unique : forall s s', plain_strings s -> plain_strings s' -> t_spec s = t_spec s' -> outline s = outline s'.
Proof.
  intros s s' [P1 P2] [P1' P2'] E. unfold t_spec in E. lit E.
  apply format_unique in E; [|assumption..]. destruct E as [H1 E]. lit E.
  apply nodes_unique in E; [|exact I|exact I]. destruct E as [H2 E]. lit E.
  apply elements_unique in E; [|exact I|exact I]. destruct E as [H3 E]. lit E.
  apply entities_unique in E; [|exact I|exact I]. destruct E as [H4 E]. lit E.
  apply (list_unique _ _ _ _ _ group_unique) in E; [|intro; apply starts; reflexivity|assumption..].
  destruct E as [H5 E]. lit E.
  apply (list_unique _ _ _ _ _ data_unique) in E; [|intro; apply starts; reflexivity|apply all_true|apply all_true].
  destruct E as [H6 E]. lit E.
  apply (list_unique _ _ _ _ _ data_unique) in E; [|intro; apply starts; reflexivity|apply all_true|apply all_true].
  destruct E as [H7 E]. lit E.
  apply (list_unique _ _ _ _ _ data_unique) in E; [|intro; apply starts; reflexivity|apply all_true|apply all_true].
  destruct E as [H8 E]. rewrite !map_id in H5. unfold outline. cbv beta in *. congruence.
Qed.

(** ** What does not show *)

Lemma map_factor : forall A B C (out : A -> B) (t : A -> C), (forall a a', out a = out a' -> t a = t a') ->
  forall l l', map out l = map out l' -> map t l = map t l'.
Proof.
  intros A B C out t H. induction l as [|a l IH]; intros [|a' l'] E; try discriminate; [reflexivity|].
  cbn [map] in *. injection E as E1 E2. f_equal; [apply H; exact E1|apply IH; exact E2].
Qed.

Lemma data_factor : forall d d', outline_data d = outline_data d' -> repr_data d = repr_data d'.
Proof.
  intros d d' E. unfold outline_data in E.
  assert (E1 : zlen (string_tags (d_header d)) = zlen (string_tags (d_header d'))) by congruence.
  assert (E2 : zlen (real_tags (d_header d)) = zlen (real_tags (d_header d'))) by congruence.
  assert (E3 : zlen (int_tags (d_header d)) = zlen (int_tags (d_header d'))) by congruence.
  assert (E4 : map (fun e => (de_tag e, de_npe e, zlen (de_data e))) (d_entries d) =
               map (fun e => (de_tag e, de_npe e, zlen (de_data e))) (d_entries d')) by congruence.
  unfold repr_data. assert (H : repr_header (d_header d) = repr_header (d_header d')).
  { unfold repr_header, size. rewrite E1, E2, E3. reflexivity. }
  rewrite H. rewrite (map_factor _ _ _ _ repr_entry) with (2 := E4); [reflexivity|].
  intros a a' Ea. unfold repr_entry, size. assert (A1 : de_tag a = de_tag a') by congruence.
  assert (A2 : de_npe a = de_npe a') by congruence. assert (A3 : zlen (de_data a) = zlen (de_data a')) by congruence.
  rewrite A1, A2, A3. reflexivity.
Qed.

Theorem spec_factor : forall s s', outline s = outline s' -> py_repr (OSpec s) = py_repr (OSpec s').
Proof.
  intros s s' E. unfold outline in E. cbn [py_repr]. unfold repr_spec.
  assert (E1 : mesh_format s = mesh_format s') by congruence.
  assert (E2 : (n_num_blocks (nodes s), n_num_nodes (nodes s), n_min (nodes s), n_max (nodes s)) =
               (n_num_blocks (nodes s'), n_num_nodes (nodes s'), n_min (nodes s'), n_max (nodes s'))) by congruence.
  assert (E3 : (e_num_blocks (elements s), e_num_elements (elements s), e_min (elements s), e_max (elements s)) =
               (e_num_blocks (elements s'), e_num_elements (elements s'), e_min (elements s'), e_max (elements s')))
    by congruence.
  assert (E4 : (zlen (points (entities s)), zlen (curves_e (entities s)), zlen (surfaces_e (entities s)), zlen (volumes_e (entities s))) =
               (zlen (points (entities s')), zlen (curves_e (entities s')), zlen (surfaces_e (entities s')), zlen (volumes_e (entities s'))))
    by congruence.
  assert (E5 : physical_groups s = physical_groups s') by congruence.
  assert (E6 : map outline_data (node_data s) = map outline_data (node_data s')) by congruence.
  assert (E7 : map outline_data (element_data s) = map outline_data (element_data s')) by congruence.
  assert (E8 : map outline_data (element_node_data s) = map outline_data (element_node_data s')) by congruence.
  clear E. apply (map_factor _ _ _ _ _ data_factor) in E6, E7, E8.
  assert (N : repr_nodes (nodes s) = repr_nodes (nodes s')).
  { unfold repr_nodes. injection E2 as -> -> -> ->. reflexivity. }
  assert (L : repr_elements (elements s) = repr_elements (elements s')).
  { unfold repr_elements. injection E3 as -> -> -> ->. reflexivity. }
  assert (T : repr_entities (entities s) = repr_entities (entities s')).
  { unfold repr_entities, size.
    assert (A1 : zlen (points (entities s)) = zlen (points (entities s'))) by congruence.
    assert (A2 : zlen (curves_e (entities s)) = zlen (curves_e (entities s'))) by congruence.
    assert (A3 : zlen (surfaces_e (entities s)) = zlen (surfaces_e (entities s'))) by congruence.
    assert (A4 : zlen (volumes_e (entities s)) = zlen (volumes_e (entities s'))) by congruence.
    rewrite A1, A2, A3, A4. reflexivity. }
  rewrite E1, E5, E6, E7, E8, N, L, T. reflexivity.
Qed.

Theorem repr_same : forall s s' t, plain_strings s -> plain_strings s' ->
  py_repr (OSpec s) = Some t -> py_repr (OSpec s') = Some t -> outline s = outline s'.
Proof.
  intros s s' t P P' E E'. cbn [py_repr] in E, E'. apply spec_unique; [assumption..|].
  rewrite repr_spec_if in E, E'.
  destruct (utf8_ok (version (mesh_format s)) && _); [|discriminate].
  destruct (utf8_ok (version (mesh_format s')) && _); [|discriminate]. congruence.
Qed.
