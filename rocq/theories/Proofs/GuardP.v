(** Reading text that may contain "nan" or "inf" where a number is expected:
    such a text leaves the stream failed although characters remain. *)

From Verif Require Import Model.Save Spec.Consistent Spec.Steps Proofs.BytesP Proofs.RtBase Proofs.ShowP
  Proofs.WriteP Proofs.RtStep Proofs.Mono Proofs.Fuel Proofs.Reach Proofs.Compose Proofs.Rt41A.

Ltac Zify.zify_post_hook ::= idtac.

(** The reading of [t], if it returns, leaves a stuck stream. *)
Definition RF {A} (r : M A) (t : bytes) : Prop :=
  forall u rest v s', ws u -> rest <> [] -> r (opened (u ++ t ++ rest)) = Ok (v, s') -> stuck s'.

(** [t] is read as [v] if [g], and leaves a stuck stream otherwise. *)
Definition GT {A} (g : bool) (r : M A) (t : bytes) (v : A) : Prop := if g then RT r t v else RF r t.

Lemma stuck_sticks : forall A (m : M A) s v s', mono m -> stuck s -> m s = Ok (v, s') -> stuck s'.
Proof.
  intros A m s v s' Hm [F E] H. apply Hm in H. destruct H as (_ & _ & H). rewrite (H F). split; assumption.
Qed.

Lemma RF_bind : forall A B (m : M A) (f : A -> M B) t1 t2, (forall a, mono (f a)) ->
  RF m t1 -> RF (bind m f) (t1 ++ t2).
Proof.
  intros A B m f t1 t2 Hf H u rest v s' Hu Hr E. unfold bind in E. rewrite <- app_assoc in E.
  destruct (m (opened (u ++ t1 ++ t2 ++ rest))) as [[a s1]|e|x| |] eqn:E1; try discriminate.
  apply (H u (t2 ++ rest)) in E1; [|exact Hu|apply app_nonnil_r; exact Hr].
  eapply stuck_sticks; [apply Hf|exact E1|exact E].
Qed.

Lemma RF_step : forall A B (m : M A) (f : A -> M B) t1 t2 a, RT m t1 a -> RF (f a) t2 ->
  RF (bind m f) (t1 ++ t2).
Proof.
  intros A B m f t1 t2 a H1 H2 u rest v s' Hu Hr E. destruct (H1 u Hu) as (u1 & W1 & E1).
  unfold bind in E. rewrite <- app_assoc, app_assoc in E.
  rewrite (E1 (t2 ++ rest)) in E by (apply app_nonnil_r; exact Hr).
  eapply (H2 u1); [exact W1|exact Hr|exact E].
Qed.

Lemma GT_bind : forall g1 g2 A B (m : M A) (f : A -> M B) t1 t2 a b, (forall a, mono (f a)) ->
  GT g1 m t1 a -> GT g2 (f a) t2 b -> GT (g1 && g2) (bind m f) (t1 ++ t2) b.
Proof.
  intros [|] [|] A B m f t1 t2 a b Hf H1 H2; cbn [andb GT] in *.
  - eapply RT_bind; eassumption.
  - eapply RF_step; eassumption.
  - apply RF_bind; assumption.
  - apply RF_bind; assumption.
Qed.

Lemma GT_step : forall g A B (m : M A) (f : A -> M B) t1 t2 a b,
  RT m t1 a -> GT g (f a) t2 b -> GT g (bind m f) (t1 ++ t2) b.
Proof.
  intros [|] A B m f t1 t2 a b H1 H2; cbn [GT] in *; [eapply RT_bind|eapply RF_step]; eassumption.
Qed.

Lemma GT_bind0 : forall g A B (m : M A) (f : A -> M B) t a b,
  (forall s, eofb s = false -> failb s = false -> m s = Ok (a, s)) ->
  GT g (f a) t b -> GT g (bind m f) t b.
Proof.
  intros [|] A B m f t a b H1 H2; cbn [GT] in *; [eapply RT_bind0; eassumption|].
  intros u rest v s' Hu Hr E. unfold bind in E. rewrite H1 in E by reflexivity. eapply H2; eassumption.
Qed.

(** The last step reads nothing. *)
Lemma GT_last : forall g A B (m : M A) (h : A -> M B) t a b, (forall x, mono (h x)) ->
  GT g m t a -> RT (h a) [] b -> GT g (bind m h) t b.
Proof.
  intros g A B m h t a b Hh H1 H2. rewrite <- (app_nil_r t), <- (andb_true_r g).
  eapply GT_bind; [exact Hh|exact H1|exact H2].
Qed.

Lemma GT_RT : forall A (r : M A) t v, RT r t v -> GT true r t v.
Proof. intros A r t v H. exact H. Qed.

(** ** Doubles *)

Lemma scan_stop : forall c b, is_digit c = false -> Byte.eqb c x2e = false ->
  scan_float false false false (c :: b) = ([], c :: b).
Proof.
  intros c b H1 H2. cbn [scan_float]. rewrite H1, H2. cbn [andb negb]. rewrite andb_false_r. reflexivity.
Qed.

Lemma extract_bad : forall x b, is_finite x = false ->
  exists r, extract_double (show_double x ++ b) = (0, true, r) /\ r <> [].
Proof.
  intros x b H. unfold is_finite in H. apply Z.ltb_ge in H.
  assert (S : show_mag (dmag x) = str "inf" \/ show_mag (dmag x) = str "nan").
  { unfold show_mag. replace (dmag x =? 0) with false by (symmetry; apply Z.eqb_neq; unfold inf_mag in H; lia).
    destruct (dmag x =? inf_mag) eqn:E; [left; reflexivity|].
    replace (inf_mag <? dmag x) with true; [right; reflexivity|].
    symmetry. apply Z.ltb_lt. apply Z.eqb_neq in E. lia. }
  unfold show_double. rewrite <- app_assoc.
  exists (show_mag (dmag x) ++ b). split; [|destruct S as [-> | ->]; discriminate].
  unfold extract_double.
  assert (T : take_sign ((if dneg x then [x2d] else []) ++ show_mag (dmag x) ++ b) =
              (dneg x, show_mag (dmag x) ++ b)).
  { destruct (dneg x); [reflexivity|]. destruct S as [-> | ->]; reflexivity. }
  rewrite T. destruct S as [-> | ->]; reflexivity.
Qed.

Lemma show_double_head : forall x, is_finite x = false -> exists c t, show_double x = c :: t /\ is_ws c = false.
Proof.
  intros x H. unfold is_finite in H. apply Z.ltb_ge in H. unfold show_double.
  destruct (dneg x); [eexists; eexists; split; reflexivity|].
  unfold show_mag. replace (dmag x =? 0) with false by (symmetry; apply Z.eqb_neq; unfold inf_mag in H; lia).
  destruct (dmag x =? inf_mag) eqn:E; [eexists; eexists; split; reflexivity|].
  replace (inf_mag <? dmag x) with true; [eexists; eexists; split; reflexivity|].
  symmetry. apply Z.ltb_lt. apply Z.eqb_neq in E. lia.
Qed.

Lemma rd_double_RF : forall old x sep, is_finite x = false -> RF (op (rd_double old)) (show_double x ++ sep).
Proof.
  intros old x sep H u rest v s' Hu Hr E. unfold op in E. injection E as E.
  destruct (show_double_head x H) as (c & t & Ec & Hc).
  unfold rd_double, rd_num in E. rewrite <- app_assoc, Ec in E. cbn [app] in E.
  rewrite sentry_ws in E by assumption.
  change (IStream.rest (opened (c :: t ++ sep ++ rest))) with (c :: t ++ sep ++ rest) in E.
  change (c :: t ++ sep ++ rest) with ((c :: t) ++ (sep ++ rest)) in E. rewrite <- Ec in E.
  destruct (extract_bad x (sep ++ rest) H) as (r & Er & Nr). rewrite Er in E.
  injection E as _ <-. destruct r as [|c' r]; [contradiction|]. split; reflexivity.
Qed.

Lemma rd_double_GT : forall old x sep, size_ok x -> ws sep -> sep <> [] ->
  GT (is_finite x) (op (rd_double old)) (show_double x ++ sep) (r6 x).
Proof.
  intros old x sep Hx Hs Hn. destruct (is_finite x) eqn:E; cbn [GT].
  - apply rd_double_RT; assumption.
  - apply rd_double_RF. exact E.
Qed.

Lemma GT_double : forall g B old x sep (f : dbl -> M B) t b, (forall a, mono (f a)) ->
  size_ok x -> ws sep -> sep <> [] -> GT g (f (r6 x)) t b ->
  GT (is_finite x && g) (bind (op (rd_double old)) f) (show_double x ++ sep ++ t) b.
Proof.
  intros. rewrite app_assoc. eapply GT_bind; [assumption|apply rd_double_GT; assumption|assumption].
Qed.

(** ** Lists *)

Lemma mapM_GT : forall A B C (f : A -> M B) (gd : C -> bool) (tx : C -> bytes) (h : C -> B) vs xs,
  (forall x, mono (f x)) -> List.length xs = List.length vs ->
  (forall x v, In x xs -> In v vs -> GT (gd v) (f x) (tx v) (h v)) ->
  GT (forallb gd vs) (mapM f xs) (List.concat (map tx vs)) (map h vs).
Proof.
  intros A B C f gd tx h vs. induction vs as [|v vs IH]; intros xs Hm HL H; destruct xs as [|x xs]; try discriminate.
  - apply RT_ret.
  - cbn [map List.concat mapM forallb]. eapply GT_bind; [intro; mono_go; apply Hm|apply H; left; reflexivity|].
    eapply GT_last; [intro; apply mono_ret| |apply RT_ret].
    apply IH; [exact Hm|injection HL; auto|]. intros; apply H; right; assumption.
Qed.

Lemma mapM_doubles_GT : forall vs t, spaced show_double vs t -> Forall size_ok vs ->
  forall xs, List.length xs = List.length vs ->
  GT (forallb is_finite vs) (mapM (fun o => op (rd_double o)) xs) t (map r6 vs).
Proof.
  intros vs t H. induction H as [|x sep l t Hs Hn H IH]; intros F xs HL; destruct xs as [|o xs]; try discriminate.
  - apply RT_ret.
  - inversion F as [|? ? Fx Fl]; subst. cbn [mapM map forallb].
    eapply GT_double; [intro; mono_go|exact Fx|exact Hs|exact Hn|].
    eapply GT_last; [intro; apply mono_ret| |apply RT_ret].
    apply IH; [exact Fl|injection HL; auto].
Qed.

(** ** Sections *)

(** The section loop does not get past text [t]. *)
Definition DEAD (c : cfg) (t : bytes) (spec : MshSpec) : Prop :=
  forall u rest f r, ws u -> run f c (Main spec (opened (u ++ t ++ rest))) <> Ok r.

Definition GPIECE (g : bool) (c : cfg) (w : W) (spec spec' : MshSpec) : Prop :=
  exists t, w = (t, Ok tt) /\ if g then LOADS c t spec spec' else DEAD c t spec.

Lemma PIECE_G : forall c w a b, PIECE c w a b -> GPIECE true c w a b.
Proof. intros c w a b H. exact H. Qed.

Lemma run_step : forall c p q, step c p q -> (forall f r, run f c q <> Ok r) -> forall f r, run f c p <> Ok r.
Proof.
  intros c p q H N f r E.
  assert (F : finishes c p (Ok r)) by (split; [discriminate|eauto]).
  destruct (run_decides c q) as [(f' & D)|D].
  - assert (Fq : finishes c q (run f' c q)) by (split; [exact D|eauto]).
    pose proof (finishes_back c p q _ H Fq) as [_ (f2 & E2)].
    assert (Q : run f' c q = Ok r).
    { destruct (Nat.le_ge_cases f f2) as [L|L].
      - rewrite (run_mono f c p (Ok r) E ltac:(discriminate) f2 L) in E2. symmetry. exact E2.
      - rewrite (run_mono f2 c p _ E2 D f L) in E. exact E. }
    exact (N _ _ Q).
  - pose proof (run_diverges c q D) as Dq. pose proof (diverges_back c p q H Dq) as Dp.
    destruct p as [spec s|flag buf spec s]; cbn [diverges run] in Dp, E.
    + rewrite Dp in E. discriminate.
    + destruct Dp as [Dp|(s' & (f0 & Ef) & Dp)]; [rewrite Dp in E; discriminate|].
      destruct (forward_result f flag buf s) as [Q|(s2 & Q)]; rewrite Q in E; [discriminate|].
      cbn [obind snd] in E.
      assert (s2 = s').
      { destruct (Nat.le_ge_cases f f0) as [L|L].
        - rewrite (forward_ok_mono _ _ _ _ _ Q _ L) in Ef. congruence.
        - rewrite (forward_ok_mono _ _ _ _ _ Ef _ L) in Q. congruence. }
      subst s2. rewrite Dp in E. discriminate.
Qed.

Lemma run_steps : forall c n p q, steps c n p q -> (forall f r, run f c q <> Ok r) -> forall f r, run f c p <> Ok r.
Proof. intros c n p q H. induction H; [auto|]. intro N. eapply run_step; eauto. Qed.

Lemma GPIECE_seq : forall g1 g2 c w1 w2 a b d, GPIECE g1 c w1 a b -> GPIECE g2 c w2 b d ->
  GPIECE (g1 && g2) c (w1 +++ w2) a d.
Proof.
  intros g1 g2 c w1 w2 a b d (t1 & E1 & L1) (t2 & E2 & L2). exists (t1 ++ t2).
  split; [apply wseq_ok; assumption|]. destruct g1; cbn [andb].
  - destruct g2; [eapply LOADS_app; eauto|].
    intros u rest f r Hu. rewrite <- app_assoc. destruct (L1 u (t2 ++ rest) Hu) as (n & u1 & W1 & S1).
    eapply run_steps; [eapply walk_steps; exact S1|]. intros. apply L2. exact W1.
  - intros u rest f r Hu. rewrite <- app_assoc. apply L1. exact Hu.
Qed.

Lemma GPIECE_ret : forall c a, GPIECE true c wret a a.
Proof. intros. apply PIECE_G, PIECE_ret. Qed.

Lemma dispatch_dead : forall c name body spec,
  token name -> is_section name = true ->
  (forall rest v s', rest <> [] -> dispatch c name spec (opened (endl ++ body ++ rest)) = Ok (v, s') -> stuck s') ->
  DEAD c ((name ++ endl) ++ body ++ (str "$End" ++ tl name ++ endl)) spec.
Proof.
  intros c name body spec [Hn Hf] Hs HD u rest f r Hu.
  set (X := body ++ (str "$End" ++ tl name ++ endl)).
  assert (R : rd_token [] (opened (u ++ ((name ++ endl) ++ X) ++ rest)) = (name, opened (endl ++ X ++ rest))).
  { destruct name as [|x nm]; [congruence|]. inversion Hf as [|? ? Hx Hf']; subst. unfold rd_token.
    rewrite <- !app_assoc. cbn [app].
    rewrite sentry_ws by assumption. cbn [IStream.rest opened].
    change (x :: nm ++ endl ++ X ++ rest) with ((x :: nm) ++ (endl ++ X ++ rest)).
    rewrite take_token_app by (auto; reflexivity). reflexivity. }
  destruct (dispatch c name spec (opened (endl ++ X ++ rest))) as [[spec' s']|e|x| |] eqn:E.
  - assert (S : stuck s').
    { apply (HD ((str "$End" ++ tl name ++ endl) ++ rest) spec'); [discriminate|].
      rewrite <- E. unfold X. rewrite <- !app_assoc. reflexivity. }
    eapply run_step; [eapply step_section; [reflexivity|exact R|exact Hs|exact E]|].
    intros f' r'. cbn [run]. rewrite forward_stuck; [discriminate|exact S|].
    unfold end_marker. discriminate.
  - intro Q. destruct f as [|f]; [discriminate|]. cbn [run load_loop opened eofb] in Q.
    change {| IStream.rest := _; eofb := false; failb := false |} with (opened (u ++ ((name ++ endl) ++ X) ++ rest)) in Q.
    rewrite (load_step_eq c spec _ _ _ R), Hs, E in Q. discriminate.
  - intro Q. destruct f as [|f]; [discriminate|]. cbn [run load_loop opened eofb] in Q.
    change {| IStream.rest := _; eofb := false; failb := false |} with (opened (u ++ ((name ++ endl) ++ X) ++ rest)) in Q.
    rewrite (load_step_eq c spec _ _ _ R), Hs, E in Q. discriminate.
  - intro Q. destruct f as [|f]; [discriminate|]. cbn [run load_loop opened eofb] in Q.
    change {| IStream.rest := _; eofb := false; failb := false |} with (opened (u ++ ((name ++ endl) ++ X) ++ rest)) in Q.
    rewrite (load_step_eq c spec _ _ _ R), Hs, E in Q. discriminate.
  - pose proof (nodiv_dispatch c name spec (opened (endl ++ X ++ rest))). contradiction.
Qed.

Lemma section_GPIECE : forall g c name w body spec spec',
  token name -> known_marker name = true -> w = (body, Ok tt) ->
  GT g (dispatch c name spec) body spec' ->
  GPIECE g c (out (name ++ endl) +++ w +++ out (str "$End" ++ tl name ++ endl)) spec spec'.
Proof.
  intros [|] c name w body spec spec' Hn Hs Hw H; cbn [GT] in H.
  - apply PIECE_G. eapply section_PIECE_RT; eassumption.
  - subst w. eexists. split; [reflexivity|]. apply dispatch_dead; [exact Hn|apply known_marker_section; exact Hs|].
    intros rest v s' Hr E. eapply (H endl rest); [apply ws_endl|exact Hr|exact E].
Qed.

(** The whole file. *)
Lemma GPIECE_file : forall c w spec, GPIECE false c w spec_default spec ->
  exists b, w = (b, Ok tt) /\ forall s', load_msh c b <> Ok s'.
Proof.
  intros c w spec (b & E & D). exists b. split; [exact E|]. intros s' L. unfold load_msh, load_msh_fuel in L.
  destruct (load_loop (S (S (List.length b))) c spec_default (opened b)) as [r|e|u| |] eqn:EL; try discriminate.
  pose proof (D [] [] (S (S (List.length b))) r ws_nil) as N. cbn [run app] in N. rewrite app_nil_r in N. contradiction.
Qed.
