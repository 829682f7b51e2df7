(** From reached loop tests to the result of load_msh. *)

From Verif Require Import Model.LoadMsh Spec.Steps Proofs.BytesP Proofs.Fuel.

Definition run (f : nat) (c : cfg) (p : point) : outcome (MshSpec * istream) :=
  match p with
  | Main spec s => load_loop f c spec s
  | Fwd flag buf spec s => obind (forward_loop f flag buf s) (fun r => load_loop f c spec (snd r))
  end.

(** The rest of the loop has result [r]. *)
Definition finishes (c : cfg) (p : point) (r : outcome (MshSpec * istream)) : Prop :=
  r <> Diverge /\ exists f, run f c p = r.

Lemma forward_result : forall f flag buf s,
  forward_loop f flag buf s = Diverge \/ exists s', forward_loop f flag buf s = Ok (tt, s').
Proof.
  induction f as [|f IH]; intros flag buf s; [left; reflexivity|]. cbn [forward_loop].
  destruct (eofb s || bytes_eqb buf flag); [right; eauto|].
  destruct (rd_token buf s). apply IH.
Qed.

Lemma run_mono : forall f c p r, run f c p = r -> r <> Diverge ->
  forall f', (f <= f')%nat -> run f' c p = r.
Proof.
  intros f c [spec s|flag buf spec s] r H N f' L; cbn [run] in *.
  - exact (load_ok_mono f c spec s r H N f' L).
  - destruct (forward_result f flag buf s) as [D|(s' & E)].
    + rewrite D in H. cbn [obind] in H. congruence.
    + rewrite E in H. cbn [obind snd] in H.
      rewrite (forward_ok_mono _ _ _ _ _ E f' L). cbn [obind snd].
      exact (load_ok_mono f c spec s' r H N f' L).
Qed.

Lemma finishes_back : forall c p q r, step c p q -> finishes c q r -> finishes c p r.
Proof.
  intros c p q r H [N (f & E)]. split; [exact N|].
  destruct H as [spec s buf s1 E0 ET IS|spec s buf s1 spec' s2 E0 ET IS ED
                |flag buf spec s buf' s' E0 NE ET|flag buf spec s C]; cbn [run] in *.
  - exists (S f). cbn [load_loop]. rewrite E0, (load_step_eq c spec s buf s1 ET), IS.
    cbn [negb obind fst snd]. exact E.
  - exists (S f). cbn [load_loop].
    rewrite E0, (load_step_eq c spec s buf s1 ET), IS, ED. cbn [negb obind fst snd]. unfold forward_to.
    destruct (forward_result f (end_marker buf) [] s2) as [D|(s3 & E3)];
      [rewrite D in E; cbn [obind] in E; congruence|].
    rewrite E3 in E. cbn [obind snd] in E.
    destruct (forward_enough (S (S (List.length (rest s2)))) (end_marker buf) [] s2 ltac:(lia))
        as [(s4 & H1 & _)|(fl & bu & s4 & _ & _ & H3 & _)].
    + rewrite H1. cbn [obind fst snd].
      assert (s4 = s3).
      { destruct (Nat.le_ge_cases f (S (S (List.length (rest s2))))) as [L|L].
        - rewrite (forward_ok_mono _ _ _ _ _ E3 _ L) in H1. congruence.
        - rewrite (forward_ok_mono _ _ _ _ _ H1 _ L) in E3. congruence. }
      subst s4. exact E.
    + rewrite H3 in E3. discriminate.
  - exists (S f). cbn [forward_loop]. apply bytes_eqb_neq in NE. rewrite E0, NE, ET. cbn [orb].
    destruct (forward_result f flag buf' s') as [D|(s3 & E3)];
      [rewrite D in E; cbn [obind] in E; congruence|].
    rewrite E3 in *. cbn [obind snd] in *. apply (load_ok_mono f); auto.
  - exists (S f). cbn [forward_loop].
    replace (eofb s || bytes_eqb buf flag) with true.
    + cbn [obind snd]. apply (load_ok_mono f); auto.
    + symmetry. apply orb_true_iff. destruct C as [C|C]; [left; exact C|right; apply bytes_eqb_eq; exact C].
Qed.

Lemma finishes_steps : forall c n p q, steps c n p q -> forall r, finishes c q r -> finishes c p r.
Proof. intros c n p q H. induction H; [auto|]. intros r' F. eapply finishes_back; eauto. Qed.

Lemma finishes_load : forall c b r, finishes c (start b) r ->
  load_msh c b = obind r (fun x => post_process c (fst x)).
Proof.
  intros c b r [N (f & E)]. cbn [start run] in E.
  assert (L : load_msh_fuel f c b = obind r (fun x => post_process c (fst x)))
    by (unfold load_msh_fuel; rewrite E; reflexivity).
  rewrite (load_fuel_irrelevant f); [exact L|]. rewrite L.
  destruct r as [[sp s]| | | |]; try discriminate; [apply post_process_nodiv|contradiction].
Qed.

Lemma reached_result : forall c b p r, reached c b p -> finishes c p r ->
  load_msh c b = obind r (fun x => post_process c (fst x)).
Proof. intros c b p r (n & R) F. apply finishes_load. exact (finishes_steps c n _ _ R r F). Qed.

(** A failing section makes load_msh fail the same way. *)
Definition failed {A B} (x : outcome A) (y : outcome B) : Prop :=
  match x, y with
  | Throw e, Throw e' => e = e'
  | Undef u, Undef u' => u = u'
  | Abort, Abort => True
  | _, _ => False
  end.

Lemma meets_fails : forall c b name spec s (y : outcome MshSpec), meets c b name spec s ->
  is_section name = true -> failed (dispatch c name spec s) y -> load_msh c b = y.
Proof.
  intros c b name spec s y (s0 & R & E & ET) IS F.
  set (r := match y with Throw e => Throw e | Undef u => Undef u | _ => Abort end : outcome (MshSpec * istream)).
  assert (FR : finishes c (Main spec s0) r).
  { split.
    - unfold r. destruct y; discriminate.
    - exists 1%nat. cbn [run load_loop]. rewrite E, (load_step_eq c spec s0 name s ET), IS.
      cbn [negb]. unfold r. destruct (dispatch c name spec s), y; cbn [failed] in F; try contradiction;
        subst; reflexivity. }
  rewrite (reached_result c b _ r R FR). unfold r.
  destruct (dispatch c name spec s), y; cbn [failed] in F; try contradiction; reflexivity.
Qed.

(** The first section of a file. *)
Lemma meets_first : forall c b name s, rd_token [] (opened b) = (name, s) ->
  meets c b name spec_default s.
Proof.
  intros c b name s E. exists (opened b). split; [exists O; constructor|]. split; [reflexivity|exact E].
Qed.

Lemma meets_after : forall c p spec rest name s,
  complete c p spec -> (forall u, Forall (fun b => is_ws b = true) u ->
     rd_token [] (opened (u ++ rest)) = (name, s)) ->
  meets c (p ++ rest) name spec s.
Proof.
  intros c p spec rest name s C H. destruct (C rest) as (u & W & R).
  exists (opened (u ++ rest)). split; [exact R|]. split; [reflexivity|apply H; exact W].
Qed.

(** Two inputs from which equivalent loop tests are reached. *)
Lemma run_decides : forall c p, (exists f, run f c p <> Diverge) \/ forall f, run f c p = Diverge.
Proof.
  intros c [spec s|flag buf spec s]; cbn [run].
  - destruct (load_enough (S (S (List.length (rest s)))) c spec s ltac:(lia)) as [H|(q & n & _ & _ & H)].
    + left. eexists. exact H.
    + right. exact H.
  - destruct (forward_enough (S (S (List.length (rest s)))) flag buf s ltac:(lia))
      as [(s' & H1 & _)|(fl & bu & s' & _ & _ & H3 & _)].
    + destruct (load_enough (S (S (List.length (rest s')))) c spec s' ltac:(lia)) as [H|(q & n & _ & _ & H)].
      * left. exists (Nat.max (S (S (List.length (rest s)))) (S (S (List.length (rest s'))))).
        rewrite (forward_ok_mono _ _ _ _ _ H1) by apply Nat.le_max_l. cbn [obind snd].
        erewrite load_ok_mono; [exact H|reflexivity|exact H|apply Nat.le_max_r].
      * right. intro f.
        destruct (forward_result f flag buf s) as [E|(s2 & E)]; rewrite E; [reflexivity|].
        cbn [obind snd].
        assert (s2 = s').
        { destruct (Nat.le_ge_cases f (S (S (List.length (rest s))))) as [L|L].
          - rewrite (forward_ok_mono _ _ _ _ _ E _ L) in H1. congruence.
          - rewrite (forward_ok_mono _ _ _ _ _ H1 _ L) in E. congruence. }
        subst. apply H.
    + right. intro f. rewrite H3. reflexivity.
Qed.

Lemma run_diverges : forall c p, (forall f, run f c p = Diverge) -> diverges c p.
Proof.
  intros c [spec s|flag buf spec s] D; cbn [diverges run] in *; [exact D|].
  destruct (forward_enough (S (S (List.length (rest s)))) flag buf s ltac:(lia))
    as [(s' & H1 & _)|(fl & bu & s' & _ & _ & H3 & _)]; [|left; exact H3].
  right. exists s'. split; [eexists; exact H1|]. intro g.
  destruct (load_enough (S (S (List.length (rest s')))) c spec s' ltac:(lia)) as [H|(q & k & _ & _ & H)];
    [|apply H].
  exfalso. apply H.
  specialize (D (Nat.max (S (S (List.length (rest s)))) (S (S (List.length (rest s')))))).
  rewrite (forward_ok_mono _ _ _ _ _ H1) in D by apply Nat.le_max_l. cbn [obind snd] in D.
  destruct (load_loop (S (S (List.length (rest s')))) c spec s') as [x|e|u| |] eqn:EL; try reflexivity;
    rewrite (load_ok_mono _ _ _ _ _ EL) in D by (try discriminate; apply Nat.le_max_r); discriminate.
Qed.

Lemma reached_diverges : forall c b p, reached c b p -> (forall f, run f c p = Diverge) ->
  load_msh c b = Diverge.
Proof.
  intros c b p (n & R) D. apply run_diverges in D. apply (diverges_reached c n _ _ R) in D.
  cbn [start diverges] in D. unfold load_msh, load_msh_fuel. rewrite D. reflexivity.
Qed.

Lemma reached_equiv : forall c b1 b2 p1 p2, reached c b1 p1 -> reached c b2 p2 ->
  (forall f, run f c p1 = run f c p2) -> load_msh c b1 = load_msh c b2.
Proof.
  intros c b1 b2 p1 p2 R1 R2 H. destruct (run_decides c p1) as [(f & N)|D].
  - rewrite (reached_result c b1 p1 (run f c p1) R1) by (split; [exact N|exists f; reflexivity]).
    rewrite (reached_result c b2 p2 (run f c p1) R2) by (split; [exact N|exists f; symmetry; apply H]).
    reflexivity.
  - rewrite (reached_diverges c b1 p1 R1 D). symmetry. apply (reached_diverges c b2 p2 R2).
    intro f. rewrite <- H. apply D.
Qed.
