(** What load_msh writes to std::cerr. *)

From Verif Require Import Model.Warn Spec.Steps Spec.Words Spec.Warnings Proofs.BytesP Proofs.RtBase Proofs.Mono Proofs.Fuel
  Proofs.Compose Proofs.Suffix Proofs.SkipP.

Ltac Zify.zify_post_hook ::= idtac.

(** ** The result *)

Lemma loud_same : forall f c spec s, snd (loud_loop f c spec s) = load_loop f c spec s.
Proof.
  induction f as [|f IH]; intros c spec s; [reflexivity|]. cbn [loud_loop load_loop].
  destruct (eofb s); [reflexivity|]. destruct (load_step c spec s) as [[spec' s']|e|u| |]; try reflexivity.
  cbn [obind fst snd]. rewrite <- IH. destruct (loud_loop f c spec' s'); reflexivity.
Qed.

Lemma loud_msh_same : forall c b, snd (loud_msh c b) = load_msh c b.
Proof.
  intros c b. unfold loud_msh, loud_msh_fuel, load_msh, load_msh_fuel. rewrite <- loud_same.
  destruct (loud_loop _ c spec_default (opened b)); reflexivity.
Qed.

(** ** The names instead of the text *)

Fixpoint names (f : nat) (c : cfg) (spec : MshSpec) (s : istream) : list bytes :=
  match f with
  | O => []
  | S f =>
    if eofb s then []
    else unknown_at (Main spec s) ++
      match load_step c spec s with Ok (spec', s') => names f c spec' s' | _ => [] end
  end.

Lemma known_in : forall n, known n = true <-> In n known_sections.
Proof.
  intro n. unfold known. rewrite existsb_exists. split.
  - intros (x & H & E). apply bytes_eqb_eq in E. subst x. exact H.
  - intro H. exists n. split; [exact H|apply bytes_eqb_eq; reflexivity].
Qed.

Lemma unknown_in : forall n, known n = false <-> ~ In n known_sections.
Proof. intro n. rewrite <- known_in. destruct (known n); split; congruence. Qed.

Lemma dispatch_cerr_eq : forall n, dispatch_cerr (x24 :: n) = if known n then [] else warning_line n.
Proof.
  intro n.
  assert (Q : forall m, bytes_eqb (x24 :: n) (x24 :: m) = bytes_eqb n m) by reflexivity.
  unfold dispatch_cerr, known.
  change (str "$MeshFormat") with (x24 :: str "MeshFormat").
  change (str "$Entities") with (x24 :: str "Entities").
  change (str "$PhysicalNames") with (x24 :: str "PhysicalNames").
  change (str "$Nodes") with (x24 :: str "Nodes").
  change (str "$Elements") with (x24 :: str "Elements").
  change (str "$NodeData") with (x24 :: str "NodeData").
  change (str "$ElementData") with (x24 :: str "ElementData").
  change (str "$ElementNodeData") with (x24 :: str "ElementNodeData").
  change (str "$NanoSplineFormat") with (x24 :: str "NanoSplineFormat").
  change (str "$Curves") with (x24 :: str "Curves").
  change (str "$Patches") with (x24 :: str "Patches").
  rewrite !Q. cbn [known_sections map existsb].
  repeat match goal with |- context [bytes_eqb n ?x] => destruct (bytes_eqb n x); [reflexivity|] end.
  reflexivity.
Qed.

Lemma step_cerr_eq : forall spec s, eofb s = false -> step_cerr s = warning_lines (unknown_at (Main spec s)).
Proof.
  intros spec s E. unfold step_cerr. cbn [unknown_at]. rewrite E. destruct (rd_token [] s) as [buf s1]. cbn [fst].
  destruct buf as [|x n]; [reflexivity|].
  destruct (is_section (x :: n)) eqn:IS; cbn [negb].
  - assert (x = x24) by (destruct x; try discriminate IS; reflexivity). subst x.
    rewrite dispatch_cerr_eq. destruct (known n); [reflexivity|]. symmetry. apply app_nil_r.
  - destruct x; try discriminate IS; reflexivity.
Qed.

Lemma warning_lines_app : forall l m, warning_lines (l ++ m) = warning_lines l ++ warning_lines m.
Proof. intros l m. unfold warning_lines. rewrite map_app, concat_app. reflexivity. Qed.

Lemma loud_names : forall f c spec s, fst (loud_loop f c spec s) = warning_lines (names f c spec s).
Proof.
  induction f as [|f IH]; intros c spec s; [reflexivity|]. cbn [loud_loop names].
  destruct (eofb s) eqn:E; [reflexivity|]. rewrite (step_cerr_eq spec s E).
  rewrite warning_lines_app.
  destruct (load_step c spec s) as [[spec' s']|e|u| |]; try (symmetry; apply app_nil_r).
  specialize (IH c spec' s'). destruct (loud_loop f c spec' s') as [w o]. cbn [fst] in *. rewrite IH. reflexivity.
Qed.

(** ** Enough fuel *)

Lemma not_section_quiet : forall spec s buf s1, rd_token [] s = (buf, s1) -> is_section buf = false ->
  unknown_at (Main spec s) = [].
Proof.
  intros spec s buf s1 E IS. cbn [unknown_at]. destruct (eofb s); [reflexivity|]. rewrite E. cbn [fst].
  destruct buf as [|x n]; [reflexivity|]. destruct x; try discriminate IS; reflexivity.
Qed.

Lemma stuck_token : forall s, stuck s -> rd_token [] s = ([], s).
Proof.
  intros s [F E]. rewrite rd_token_bad by (unfold good; rewrite F; apply andb_false_r).
  rewrite set_fail_failed by exact F. reflexivity.
Qed.

Lemma names_stuck : forall f c spec s, stuck s -> names f c spec s = [].
Proof.
  induction f as [|f IH]; intros c spec s S; [reflexivity|]. cbn [names]. destruct (eofb s); [reflexivity|].
  pose proof (stuck_token s S) as T. rewrite (not_section_quiet spec s [] s T eq_refl).
  rewrite (load_step_eq c spec s [] s T). cbn [is_section negb]. cbn [app]. apply IH. exact S.
Qed.

(** A round of the loop on a good stream ends the stream or consumes. *)
Lemma load_step_progress : forall c spec s spec' s', good s = true -> load_step c spec s = Ok (spec', s') ->
  eofb s' = true \/ (List.length (rest s') < List.length (rest s))%nat.
Proof.
  intros c spec s spec' s' G H. destruct (rd_token [] s) as [buf s1] eqn:ET.
  rewrite (load_step_eq c spec s buf s1 ET) in H.
  pose proof (rd_token_progress [] s G) as P. rewrite ET in P. cbn [snd] in P.
  destruct (negb (is_section buf)); [injection H as _ <-; exact P|].
  destruct (dispatch c buf spec s1) as [[sp s2]|e|u| |] eqn:ED; cbn [obind fst snd] in H; try discriminate.
  pose proof (mono_dispatch c buf spec _ _ _ ED) as A2. unfold forward_to in H.
  destruct (forward_enough (S (S (List.length (rest s2)))) (end_marker buf) [] s2 ltac:(lia))
    as [(s3 & H1 & A3 & _)|(fl & bu & s3 & _ & _ & H3 & _)]; [rewrite H1 in H|rewrite H3 in H; discriminate].
  cbn [obind snd] in H. injection H as _ <-.
  pose proof (adv_trans _ _ _ A2 A3) as A. destruct P as [P|P]; [left; exact (adv_eof _ _ A P)|].
  right. destruct A as [L _]. lia.
Qed.

Lemma names_enough : forall f c spec s, (List.length (rest s) + 2 <= f)%nat ->
  forall f', (f <= f')%nat -> names f' c spec s = names f c spec s.
Proof.
  induction f as [|f IH]; intros c spec s L f' L'; [lia|]. destruct f' as [|f']; [lia|]. cbn [names].
  destruct (eofb s) eqn:E; [reflexivity|].
  destruct (good s) eqn:G.
  - destruct (load_step c spec s) as [[spec' s']|e|u| |] eqn:LS; try reflexivity. f_equal.
    destruct (load_step_progress c spec s spec' s' G LS) as [P|P].
    + destruct f as [|f]; [lia|]. destruct f' as [|f']; [lia|]. cbn [names]. rewrite P. reflexivity.
    + apply IH; lia.
  - pose proof (not_good_cases s G E) as S.
    pose proof (names_stuck (Datatypes.S f) c spec s S) as A. pose proof (names_stuck (Datatypes.S f') c spec s S) as B.
    cbn [names] in A, B. rewrite E in A, B. rewrite A, B. reflexivity.
Qed.

(** ** From every loop test *)

Definition names_from (f : nat) (c : cfg) (p : point) : list bytes :=
  match p with
  | Main spec s => names f c spec s
  | Fwd flag buf spec s => match forward_loop f flag buf s with Ok (_, s') => names f c spec s' | _ => [] end
  end.

(** What is still to be said, given enough fuel. *)
Definition says (c : cfg) (p : point) (l : list bytes) : Prop :=
  exists f0, forall f, (f0 <= f)%nat -> names_from f c p = l.

Lemma says_unique : forall c p l l', says c p l -> says c p l' -> l = l'.
Proof.
  intros c p l l' (f & H) (f' & H'). rewrite <- (H (Nat.max f f')), <- (H' (Nat.max f f')); [reflexivity|lia|lia].
Qed.

Lemma says_main : forall c spec s, says c (Main spec s) (names (List.length (rest s) + 2) c spec s).
Proof. intros c spec s. exists (List.length (rest s) + 2)%nat. intros f L. apply names_enough; lia. Qed.

Lemma says_start : forall c b, says c (start b) (names (S (S (List.length b))) c spec_default (opened b)).
Proof.
  intros c b. pose proof (says_main c spec_default (opened b)) as H. cbn [opened rest] in H.
  rewrite Nat.add_comm in H. exact H.
Qed.

(** The two ways forward_to can go. *)
Lemma forward_settles : forall flag buf s,
  (exists s', forall f, (List.length (rest s) + 2 <= f)%nat -> forward_loop f flag buf s = Ok (tt, s')) \/
  (forall f, forward_loop f flag buf s = Diverge).
Proof.
  intros flag buf s.
  destruct (forward_enough (List.length (rest s) + 2) flag buf s (le_n _)) as [(s' & H1 & _)|(fl & bu & s3 & _ & _ & H3 & _)].
  - left. exists s'. intros f L. exact (forward_ok_mono _ _ _ _ _ H1 f L).
  - right. exact H3.
Qed.

Lemma says_all : forall c p, exists l, says c p l.
Proof.
  intros c [spec s|flag buf spec s]; [eexists; apply says_main|].
  destruct (forward_settles flag buf s) as [(s' & H)|H].
  - destruct (says_main c spec s') as (f0 & H0). eexists. exists (Nat.max f0 (List.length (rest s) + 2)).
    intros f L. cbn [names_from]. rewrite H by lia. apply (H0 f). lia.
  - exists []. exists O. intros f _. cbn [names_from]. rewrite H. reflexivity.
Qed.

Lemma says_step : forall c p q l, step c p q -> says c q l -> says c p (unknown_at p ++ l).
Proof.
  intros c p q l H (f0 & Hq).
  destruct H as [spec s buf s1 E0 ET IS|spec s buf s1 spec' s2 E0 ET IS ED
                |flag buf spec s buf' s' E0 NE ET|flag buf spec s C].
  - exists (S f0). intros f L. destruct f as [|f]; [lia|]. cbn [names_from names]. rewrite E0.
    rewrite (load_step_eq c spec s buf s1 ET), IS. cbn [negb]. f_equal. apply Hq. lia.
  - exists (S (Nat.max f0 (List.length (rest s2) + 2))). intros f L. destruct f as [|f]; [lia|].
    cbn [names_from names]. rewrite E0.
    rewrite (load_step_eq c spec s buf s1 ET), IS, ED. cbn [negb obind fst snd]. f_equal.
    unfold forward_to. specialize (Hq f ltac:(lia)). cbn [names_from] in Hq.
    destruct (forward_settles (end_marker buf) [] s2) as [(s3 & H3)|H3].
    + rewrite H3 in Hq |- * by lia. exact Hq.
    + rewrite H3 in Hq |- *. exact Hq.
  - exists (S (Nat.max f0 (List.length (rest s') + 2))). intros f L. destruct f as [|f]; [lia|].
    cbn [names_from unknown_at app]. specialize (Hq (S f) ltac:(lia)). cbn [names_from] in Hq.
    apply bytes_eqb_neq in NE. cbn [forward_loop]. rewrite E0, NE, ET. cbn [orb].
    destruct (forward_settles flag buf' s') as [(s3 & H3)|H3].
    + rewrite H3 in Hq |- * by lia. exact Hq.
    + rewrite H3 in Hq |- *. exact Hq.
  - exists (S f0). intros f L. destruct f as [|f]; [lia|]. cbn [names_from unknown_at app forward_loop].
    replace (eofb s || bytes_eqb buf flag) with true; [apply (Hq (S f)); lia|].
    symmetry. apply orb_true_iff. destruct C as [C|C]; [left; exact C|right; apply bytes_eqb_eq; exact C].
Qed.

Lemma says_path : forall c l n p q, path c l n p q -> forall m, says c q m -> says c p (l ++ m).
Proof.
  intros c l n p q H. induction H as [p|n p q r l S H IH]; intros m M; [exact M|].
  rewrite <- app_assoc. eapply says_step; [exact S|apply IH; exact M].
Qed.

(** ** The text *)

Lemma cerr_says : forall c b l, says c (start b) l -> load_cerr c b = warning_lines l.
Proof.
  intros c b l H. unfold load_cerr, loud_msh, loud_msh_fuel.
  rewrite <- (says_unique _ _ _ _ (says_start c b) H). rewrite <- loud_names.
  destruct (loud_loop _ c spec_default (opened b)); reflexivity.
Qed.

(** However long it runs. *)
Lemma cerr_fuel : forall f c b, (S (S (List.length b)) <= f)%nat -> fst (loud_msh_fuel f c b) = load_cerr c b.
Proof.
  intros f c b L. unfold load_cerr, loud_msh, loud_msh_fuel.
  pose proof (loud_names f c spec_default (opened b)) as A.
  pose proof (loud_names (S (S (List.length b))) c spec_default (opened b)) as B.
  rewrite (names_enough (S (S (List.length b))) c spec_default (opened b)) in A; [|cbn [opened rest]; lia|exact L].
  rewrite <- B in A. destruct (loud_loop f _ _ _), (loud_loop (S (S (List.length b))) _ _ _). exact A.
Qed.

Lemma cerr_path : forall c b l n spec u, path c l n (start b) (Main spec (opened u)) -> ws u ->
  load_cerr c b = warning_lines l.
Proof.
  intros c b l n spec u P W. apply cerr_says. rewrite <- (app_nil_r l). eapply says_path; [exact P|].
  exists 2%nat. intros f L. destruct f as [|[|f]]; [lia|lia|]. cbn [names_from names opened eofb].
  change {| rest := u; eofb := false; failb := false |} with (opened u).
  pose proof (rd_token_end [] u W) as T. rewrite (not_section_quiet spec (opened u) [] _ T eq_refl).
  rewrite (load_step_eq c spec (opened u) [] _ T). cbn [is_section negb]. reflexivity.
Qed.

Lemma cerr_LOADSw : forall c P l b spec, LOADSw c P l b spec_default spec -> load_cerr c b = warning_lines l.
Proof.
  intros c P l b spec H. destruct (H [] [] ws_nil) as (n & u & W & K). cbn [app] in K. rewrite !app_nil_r in K.
  eapply cerr_path; [eapply walk_path; exact K|exact W].
Qed.

(** ** A path that says it all *)

Lemma path_trans : forall c l n p q, path c l n p q -> forall l' m r, path c l' m q r -> path c (l ++ l') (n + m) p r.
Proof.
  intros c l n p q H. induction H; intros l' m r' H'; [exact H'|]. cbn [Nat.add]. rewrite <- app_assoc.
  econstructor; [eassumption|]. apply IHpath. exact H'.
Qed.

Lemma forward_path : forall f c flag buf spec s s', forward_loop f flag buf s = Ok (tt, s') ->
  exists n, path c [] n (Fwd flag buf spec s) (Main spec s').
Proof.
  induction f as [|f IH]; intros c flag buf spec s s' H; [discriminate|]. cbn [forward_loop] in H.
  destruct (eofb s || bytes_eqb buf flag) eqn:E.
  - injection H as <-. exists 1%nat. apply (path_S c 0 (Fwd flag buf spec s) (Main spec s) _ []); [|constructor].
    apply step_found. apply orb_true_iff in E. destruct E as [E|E]; [left; exact E|right; apply bytes_eqb_eq; exact E].
  - apply orb_false_iff in E. destruct E as [E N]. apply bytes_eqb_neq in N.
    destruct (rd_token buf s) as [buf' s1] eqn:ET. destruct (IH c flag buf' spec s1 s' H) as (n & P).
    exists (S n). apply (path_S c n (Fwd flag buf spec s) (Fwd flag buf' spec s1) _ []); [|exact P]. eapply step_skip; eauto.
Qed.

Lemma unknown_cases : forall spec s, unknown_at (Main spec s) = [] \/
  exists n s1, eofb s = false /\ rd_token [] s = (x24 :: n, s1) /\ known n = false /\ unknown_at (Main spec s) = [n].
Proof.
  intros spec s. cbn [unknown_at]. destruct (eofb s); [left; reflexivity|].
  destruct (rd_token [] s) as [[|[] n] s1]; cbn [fst]; try (left; reflexivity).
  destruct (known n) eqn:K; [left; reflexivity|right]. exists n, s1. auto.
Qed.

Lemma names_path : forall f c spec s, exists n q, path c (names f c spec s) n (Main spec s) q.
Proof.
  induction f as [|f IH]; intros c spec s; [exists O, (Main spec s); constructor|]. cbn [names].
  destruct (eofb s) eqn:E; [exists O, (Main spec s); constructor|].
  destruct (rd_token [] s) as [buf s1] eqn:ET. pose proof (load_step_eq c spec s buf s1 ET) as LS.
  destruct (is_section buf) eqn:IS; cbn [negb] in LS.
  - destruct (dispatch c buf spec s1) as [[spec' s2]|e|u| |] eqn:ED; cbn [obind fst snd] in LS.
    + assert (ST : step c (Main spec s) (Fwd (end_marker buf) [] spec' s2)) by (eapply step_section; eauto).
      unfold forward_to in LS. destruct (forward_settles (end_marker buf) [] s2) as [(s3 & H3)|H3].
      * rewrite H3 in LS by lia. cbn [obind snd] in LS. rewrite LS.
        destruct (IH c spec' s3) as (n & q & P).
        destruct (forward_path (S (S (List.length (rest s2)))) c (end_marker buf) [] spec' s2 s3) as (m & P0); [apply H3; lia|].
        exists (S (m + n)), q. econstructor; [exact ST|]. exact (path_trans _ _ _ _ _ P0 _ _ _ P).
      * rewrite H3 in LS. cbn [obind] in LS. rewrite LS. eexists _, _. econstructor; [exact ST|constructor].
    + rewrite LS. exists O, (Main spec s). destruct (unknown_cases spec s) as [->|(n & s1' & _ & ET' & K & _)]; [constructor|].
      rewrite ET in ET'. injection ET' as -> ->. apply unknown_in in K. rewrite dispatch_unknown in ED by exact K. discriminate.
    + rewrite LS. exists O, (Main spec s). destruct (unknown_cases spec s) as [->|(n & s1' & _ & ET' & K & _)]; [constructor|].
      rewrite ET in ET'. injection ET' as -> ->. apply unknown_in in K. rewrite dispatch_unknown in ED by exact K. discriminate.
    + rewrite LS. exists O, (Main spec s). destruct (unknown_cases spec s) as [->|(n & s1' & _ & ET' & K & _)]; [constructor|].
      rewrite ET in ET'. injection ET' as -> ->. apply unknown_in in K. rewrite dispatch_unknown in ED by exact K. discriminate.
    + pose proof (nodiv_dispatch c buf spec s1). contradiction.
  - rewrite LS. destruct (IH c spec s1) as (n & q & P). exists (S n), q. econstructor; [|exact P].
    eapply step_word; eauto.
Qed.

Theorem cerr_exact : forall c b, exists l, load_cerr c b = warning_lines l /\
  (exists n p, path c l n (start b) p) /\
  (forall l' n p, path c l' n (start b) p -> exists m, l = l' ++ m).
Proof.
  intros c b. pose proof (says_start c b) as S. eexists. split; [apply cerr_says; exact S|]. split; [apply names_path|].
  intros l' n p P. destruct (says_all c p) as (m & M). exists m.
  eapply says_unique; [exact S|]. eapply says_path; [exact P|exact M].
Qed.

(** ** Where the names come from *)

Lemma token_ends : forall s n s1, rd_token [] s = (x24 :: n, s1) ->
  exists w, rest s = w ++ (x24 :: n) ++ rest s1 /\ Forall (fun x => is_ws x = false) n.
Proof.
  intros s n s1 H. unfold rd_token in H.
  destruct (sentry_cases s) as [(G & N & E)|[(G & N & E)|(G & E)]]; rewrite E in H; cbn [with_rest IStream.rest] in H;
    try discriminate.
  destruct (take_token (skip_ws (rest s))) as [t r] eqn:ET. injection H as -> <-.
  destruct (at_end_rest r (with_rest (skip_ws (rest s)) s)) as (e & ->). cbn [IStream.rest].
  pose proof (take_token_split _ _ _ ET) as SP. destruct (skip_ws_ends (rest s)) as (w & W).
  exists w. split; [rewrite <- SP; exact W|].
  assert (F : Forall (fun x => is_ws x = false) (x24 :: n)).
  { clear -ET. revert ET. generalize (x24 :: n). generalize (skip_ws (rest s)). intro b.
    induction b as [|x b IH]; intros t ET; cbn [take_token] in ET; [injection ET as <- _; constructor|].
    destruct (is_ws x) eqn:W; [injection ET as <- _; constructor|].
    destruct (take_token b) as [t' r'] eqn:E. injection ET as <- ->. constructor; [exact W|apply IH; reflexivity]. }
  inversion F; assumption.
Qed.

Lemma sub_step : forall c p q, step c p q -> sub (stream_of p) (stream_of q).
Proof.
  intros c p q [spec s buf s1 E0 ET IS|spec s buf s1 spec' s2 E0 ET IS ED
                |flag buf spec s buf' s' E0 NE ET|flag buf spec s C]; cbn [stream_of].
  - pose proof (sub_rd_token [] s) as H. rewrite ET in H. exact H.
  - pose proof (sub_rd_token [] s) as H. rewrite ET in H. eapply sub_trans; [exact H|]. eapply sfx_dispatch; exact ED.
  - pose proof (sub_rd_token buf s) as H. rewrite ET in H. exact H.
  - apply sub_refl.
Qed.

Lemma spread_ends : forall l b b', ends b' b -> spread l b -> spread l b'.
Proof.
  intros l b b' (p & ->) H. destruct H as [b|w n l b F K H]; [constructor|]. rewrite app_assoc. constructor; assumption.
Qed.

Lemma path_spread : forall c l n p q, path c l n p q -> spread l (rest (stream_of p)).
Proof.
  intros c l n p q H. induction H as [p|n p q r l S H IH]; [constructor|].
  assert (E : forall s, stream_of p = s -> unknown_at p = [] -> spread (unknown_at p ++ l) (rest s)).
  { intros s <- ->. eapply spread_ends; [exact (sub_step _ _ _ S)|exact IH]. }
  destruct p as [spec s|flag buf spec s]; [|apply E; reflexivity].
  destruct (unknown_cases spec s) as [U|(nm & s1 & E0 & ET & K & U)]; [apply E; auto|]. cbn [stream_of]. rewrite U.
  destruct (token_ends s nm s1 ET) as (w & -> & F). constructor; [exact F|apply unknown_in; exact K|].
  eapply spread_ends; [|exact IH].
  inversion S as [spec0 s0 buf s1' E0' ET' IS| spec0 s0 buf s1' spec' s2 E0' ET' IS ED| |]; subst.
  - rewrite ET in ET'. injection ET' as <- <-. discriminate.
  - rewrite ET in ET'. injection ET' as <- <-. exact (sfx_dispatch _ _ _ _ _ _ ED).
Qed.
