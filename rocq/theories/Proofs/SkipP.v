(** Unknown sections and text between sections. *)

From Verif Require Import Model.Save Spec.Words Spec.Steps Proofs.BytesP Proofs.RtBase
  Proofs.Fuel Proofs.Reach Proofs.HeaderP Proofs.Compose Proofs.Rt41.

Ltac Zify.zify_post_hook ::= idtac.

Lemma rd_token_ws : forall old u q, ws u -> rd_token old (opened (u ++ q)) = rd_token old (opened q).
Proof.
  intros old u q Hu. unfold rd_token, sentry. cbn [good opened eofb failb IStream.rest negb andb].
  rewrite skip_ws_app by exact Hu. destruct (skip_ws q); reflexivity.
Qed.

Lemma main_ws : forall f c spec u q, ws u ->
  run f c (Main spec (opened (u ++ q))) = run f c (Main spec (opened q)).
Proof.
  intros f c spec u q Hu. cbn [run]. destruct f as [|f]; [reflexivity|]. cbn [load_loop opened eofb].
  unfold load_step. change {| IStream.rest := ?b; eofb := false; failb := false |} with (opened b).
  rewrite rd_token_ws by exact Hu. reflexivity.
Qed.

Lemma dispatch_unknown : forall c X spec, ~ In X known_sections ->
  dispatch c (x24 :: X) spec = ret spec.
Proof.
  intros c X spec H. unfold dispatch. cbn [known_sections map In] in H.
  assert (Q : forall n : string, str n <> X -> bytes_eqb (x24 :: X) (x24 :: str n) = false).
  { intros n N. apply bytes_eqb_neq. congruence. }
  repeat match goal with
  | |- context [bytes_eqb (x24 :: X) (str ?n)] =>
      match n with
      | String _ ?m => change (str n) with (x24 :: str m); rewrite (Q m) by tauto
      end
  end. reflexivity.
Qed.

Lemma reached_step : forall c b p q, reached c b p -> step c p q -> reached c b q.
Proof.
  intros c b p q (n & R) H. exists (n + 1)%nat. eapply steps_trans; [exact R|].
  eapply steps_S; [exact H|constructor].
Qed.

Lemma at_end_ws : forall w r, w <> [] -> at_end (w ++ r) (opened (w ++ r)) = opened (w ++ r).
Proof. intros w r N. destruct w; [congruence|reflexivity]. Qed.

Lemma ends_word_ws : forall w r, ws w -> w <> [] -> ends_word (w ++ r).
Proof. intros w r H N. destruct w; [congruence|]. inversion H; assumption. Qed.

Lemma skip_words : forall c b flag spec l r, words_are (fun t => t <> flag) l ->
  ends_word r -> r <> [] ->
  forall buf, buf <> flag -> reached c b (Fwd flag buf spec (opened (text l ++ r))) ->
  exists buf', buf' <> flag /\ reached c b (Fwd flag buf' spec (opened r)).
Proof.
  intros c b flag spec l r H Hr Nr. induction H as [|[w t] l (Hw & Nw & Ht & Nt) Hl IH]; intros buf Nb R.
  - exists buf. split; assumption.
  - cbn [fst snd] in *. cbn [text map List.concat fst snd] in R. change (List.concat (map _ l)) with (text l) in R.
    apply (IH t Nt). eapply reached_step; [exact R|].
    eapply step_skip; [reflexivity|exact Nb|]. rewrite <- !app_assoc.
    assert (E : text l ++ r <> [] /\ ends_word (text l ++ r)).
    { inversion Hl as [|[w2 t2] l2 (Hw2 & Nw2 & _) _]; subst; [split; assumption|].
      cbn [fst snd] in *. unfold text. cbn [map List.concat fst snd]. rewrite <- !app_assoc.
      split; [destruct w2; [congruence|discriminate]|apply ends_word_ws; assumption]. }
    destruct E as [E1 E2]. rewrite rd_token_text by assumption.
    destruct (text l ++ r); [congruence|reflexivity].
Qed.

Lemma unknown_reached : forall c b spec X l w q u, blank u ->
  word X -> ~ In X known_sections ->
  words_are (fun t => t <> str "$End" ++ X) l -> blank w -> w <> [] ->
  reached c b (Main spec (opened (u ++ (str "$" ++ X ++ text l ++ w ++ str "$End" ++ X ++ endl) ++ q))) ->
  reached c b (Main spec (opened (endl ++ q))).
Proof.
  intros c b spec X l w q u Wu HX NX HL Hw Nw R.
  rewrite <- !app_assoc in *.
    assert (E : w ++ str "$End" ++ X ++ endl ++ q <> [] /\ ends_word (w ++ str "$End" ++ X ++ endl ++ q))
      by (split; [destruct w; [congruence|discriminate]|apply ends_word_ws; assumption]).
    destruct E as [E1 E2].
    assert (E3 : text l ++ w ++ str "$End" ++ X ++ endl ++ q <> [] /\
                 ends_word (text l ++ w ++ str "$End" ++ X ++ endl ++ q)).
    { inversion HL as [|[w2 t2] l2 (Hw2 & Nw2 & _) _]; subst; [split; assumption|].
      cbn [fst snd] in *. unfold text. cbn [map List.concat fst snd]. rewrite <- !app_assoc.
      split; [destruct w2; [congruence|discriminate]|apply ends_word_ws; assumption]. }
    destruct E3 as [E3 E4].
    assert (NE : [] <> str "$End" ++ X) by discriminate.
    eapply reached_step with (q := Fwd (str "$End" ++ X) [] spec
      (opened (text l ++ w ++ str "$End" ++ X ++ endl ++ q))) in R.
    - destruct (skip_words _ _ _ _ _ _ HL E2 E1 [] NE R) as (buf & Nb & R3).
      eapply reached_step with (q := Fwd (str "$End" ++ X) (str "$End" ++ X) spec (opened (endl ++ q))) in R3.
      + eapply reached_step; [exact R3|]. apply step_found. right. reflexivity.
      + eapply step_skip; [reflexivity|exact Nb|]. rewrite (app_assoc (str "$End")).
        rewrite rd_token_text; [reflexivity|assumption| |reflexivity].
        destruct HX as [_ HX]. split; [discriminate|]. apply Forall_app. split; [repeat constructor|exact HX].
    - change (str "$End" ++ X) with (end_marker (x24 :: X)).
      eapply step_section with (s1 := opened (text l ++ w ++ end_marker (x24 :: X) ++ endl ++ q)).
      + reflexivity.
      + change (str "$" ++ X ++ ?y) with ((x24 :: X) ++ y). rewrite rd_token_text; [|exact Wu| |exact E4].
        * change (end_marker (x24 :: X) ++ ?y) with (str "$End" ++ X ++ y).
          destruct (text l ++ w ++ str "$End" ++ X ++ endl ++ q); [congruence|reflexivity].
        * destruct HX as [_ HX]. split; [discriminate|]. constructor; [reflexivity|exact HX].
      + reflexivity.
      + rewrite dispatch_unknown by exact NX. reflexivity.
Qed.

Lemma unknown_section : forall c p spec X l w q, complete c p spec ->
  word X -> ~ In X known_sections ->
  words_are (fun t => t <> str "$End" ++ X) l -> blank w -> w <> [] ->
  load_msh c (p ++ (str "$" ++ X ++ text l ++ w ++ str "$End" ++ X ++ endl) ++ q) = load_msh c (p ++ q).
Proof.
  intros c p spec X l w q C HX NX HL Hw Nw.
  destruct (C ((str "$" ++ X ++ text l ++ w ++ str "$End" ++ X ++ endl) ++ q)) as (u & Wu & R).
  destruct (C q) as (u2 & Wu2 & R2).
  assert (R' : reached c (p ++ (str "$" ++ X ++ text l ++ w ++ str "$End" ++ X ++ endl) ++ q)
                 (Main spec (opened (endl ++ q)))).
  { exact (unknown_reached c _ spec X l w q u Wu HX NX HL Hw Nw R). }
  apply (reached_equiv c _ _ _ _ R' R2). intro f.
  rewrite main_ws by apply ws_endl. rewrite main_ws by exact Wu2. reflexivity.
Qed.

(** ** Words between sections *)

Lemma plain_not_section : forall t, plain t -> is_section t = false.
Proof. intros [|x t] H; [reflexivity|]. cbn [plain] in H. destruct x; try reflexivity. congruence. Qed.

Lemma skip_plain : forall c b spec l r, words_are plain l -> ends_word r -> r <> [] ->
  reached c b (Main spec (opened (text l ++ r))) -> reached c b (Main spec (opened r)).
Proof.
  intros c b spec l r H Hr Nr. induction H as [|[w t] l (Hw & Nw & Ht & Nt) Hl IH]; intros R; [exact R|].
  cbn [fst snd] in *. cbn [text map List.concat fst snd] in R. change (List.concat (map _ l)) with (text l) in R.
  apply IH. eapply reached_step; [exact R|].
  assert (E : text l ++ r <> [] /\ ends_word (text l ++ r)).
  { inversion Hl as [|[w2 t2] l2 (Hw2 & Nw2 & _) _]; subst; [split; assumption|].
    cbn [fst snd] in *. unfold text. cbn [map List.concat fst snd]. rewrite <- !app_assoc.
    split; [destruct w2; [congruence|discriminate]|apply ends_word_ws; assumption]. }
  destruct E as [E1 E2]. eapply step_word; [reflexivity| |apply plain_not_section; exact Nt].
  rewrite <- !app_assoc. rewrite rd_token_text by assumption.
  destruct (text l ++ r); [congruence|reflexivity].
Qed.

Lemma loose_reached : forall c b spec l w q u, blank u -> words_are plain l -> blank w -> w <> [] ->
  reached c b (Main spec (opened (u ++ (text l ++ w) ++ q))) ->
  exists u', blank u' /\ reached c b (Main spec (opened (u' ++ q))).
Proof.
  intros c b spec l w q u Wu HL Hw Nw R. destruct l as [|[w1 t1] l].
  - exists (u ++ w). split; [apply ws_app; assumption|]. rewrite <- app_assoc. exact R.
  - exists w. split; [exact Hw|].
    assert (HL2 : words_are plain ((u ++ w1, t1) :: l)).
    { inversion HL as [|? ? (H1 & H2 & H3) H4]; subst. constructor; [|exact H4]. cbn [fst snd] in *.
      split; [apply ws_app; assumption|]. split; [destruct u; [exact H2|discriminate]|exact H3]. }
    eapply (skip_plain c _ spec _ (w ++ q)) in HL2.
    + exact HL2.
    + apply ends_word_ws; assumption.
    + destruct w; [congruence|discriminate].
    + unfold text in *. cbn [map List.concat fst snd] in *. rewrite <- !app_assoc in *. exact R.
Qed.

Lemma loose_words : forall c p spec l w q, complete c p spec ->
  words_are plain l -> blank w -> w <> [] ->
  load_msh c (p ++ (text l ++ w) ++ q) = load_msh c (p ++ q).
Proof.
  intros c p spec l w q C HL Hw Nw.
  destruct (C ((text l ++ w) ++ q)) as (u & Wu & R). destruct (C q) as (u2 & Wu2 & R2).
  destruct (loose_reached _ _ _ _ _ _ _ Wu HL Hw Nw R) as (u3 & Wu3 & R3).
  apply (reached_equiv c _ _ _ _ R3 R2). intro f. rewrite !main_ws by assumption. reflexivity.
Qed.

(** At the end of the file the last word needs no whitespace after it. *)
Lemma trailing_words : forall c p spec l w t, complete c p spec ->
  words_are plain (l ++ [(w, t)]) -> load_msh c (p ++ text (l ++ [(w, t)])) = load_msh c p.
Proof.
  intros c p spec l w t C HL.
  apply Forall_app in HL. destruct HL as [HL HT]. inversion HT as [|? ? (Hw & Nw & Ht & Nt) _]; subst.
  cbn [fst snd] in *.
  assert (ET : text (l ++ [(w, t)]) = (text l ++ w) ++ t).
  { unfold text. rewrite map_app, concat_app. cbn [map List.concat fst snd]. rewrite app_nil_r, app_assoc. reflexivity. }
  rewrite ET, (loose_words c p spec l w t C HL Hw Nw).
  destruct (C t) as (u & Wu & R). destruct (C []) as (u2 & Wu2 & R2). rewrite app_nil_r in R2.
  assert (E : rd_token [] (opened (u ++ t)) = (t, {| rest := []; eofb := true; failb := false |})).
  { rewrite <- (app_nil_r t) at 1. rewrite rd_token_text by (auto; exact I). reflexivity. }
  assert (R3 : reached c (p ++ t) (Main spec {| rest := []; eofb := true; failb := false |})).
  { eapply reached_step; [exact R|]. eapply step_word; [reflexivity|exact E|apply plain_not_section; exact Nt]. }
  assert (R4 : reached c p (Main spec {| rest := []; eofb := true; failb := true |})).
  { eapply reached_step; [exact R2|]. eapply step_word; [reflexivity| |].
    - rewrite app_nil_r. rewrite <- (app_nil_r u2). rewrite rd_token_ws by exact Wu2. reflexivity.
    - reflexivity. }
  rewrite (reached_result c _ _ (Ok (spec, {| rest := []; eofb := true; failb := false |})) R3)
    by (split; [discriminate|exists 1%nat; reflexivity]).
  rewrite (reached_result c _ _ (Ok (spec, {| rest := []; eofb := true; failb := true |})) R4)
    by (split; [discriminate|exists 1%nat; reflexivity]).
  reflexivity.
Qed.

(** ** Complete prefixes *)

Lemma places :
  (forall c, complete c [] spec_default) /\
  (forall c a s, consistent41 c a s -> exists spec, complete c (fst (save_msh c s)) spec) /\
  (forall c p spec name l w, complete c p spec -> word name -> ~ In name known_sections ->
     words_are (fun t => t <> str "$End" ++ name) l -> blank w -> w <> [] ->
     complete c (p ++ str "$" ++ name ++ text l ++ w ++ str "$End" ++ name ++ endl) spec) /\
  (forall c p spec l w, complete c p spec -> words_are plain l -> blank w -> w <> [] ->
     complete c (p ++ text l ++ w) spec).
Proof.
  split; [|split; [|split]].
  - intros c r. exists []. split; [constructor|]. exists O. constructor.
  - intros c a s H. destruct (piece41 c a s H) as (b & E & L). rewrite E.
    eexists. apply LOADS_complete. exact L.
  - intros c p spec X l w C HX NX HL Hw Nw r. exists endl. split; [apply ws_endl|].
    destruct (C ((str "$" ++ X ++ text l ++ w ++ str "$End" ++ X ++ endl) ++ r)) as (u & Wu & R).
    rewrite <- app_assoc. exact (unknown_reached c _ spec X l w r u Wu HX NX HL Hw Nw R).
  - intros c p spec l w C HL Hw Nw r. destruct (C ((text l ++ w) ++ r)) as (u & Wu & R).
    rewrite <- app_assoc. exact (loose_reached c _ spec l w r u Wu HL Hw Nw R).
Qed.
