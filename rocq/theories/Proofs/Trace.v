(** Computing the section loop on concrete files. *)

From Verif Require Import Model.LoadMsh Spec.Steps Spec.Prefix Spec.Files22 Proofs.BytesP Proofs.Fuel Proofs.File22P.

Section Check.
Variable ok : bytes -> MshSpec -> bool.
Variable c : cfg.

(** Runs the loop; None if some section met is not [ok] or the loop does not end normally. *)
Fixpoint trace (fuel : nat) (spec : MshSpec) (s : istream) : option (MshSpec * istream) :=
  match fuel with
  | O => None
  | S f =>
    if eofb s then Some (spec, s)
    else
      let (buf, s1) := rd_token [] s in
      if ok buf spec then
        match load_step c spec s with
        | Ok (spec', s') => trace f spec' s'
        | _ => None
        end
      else None
  end.

Definition going (p : point) : Prop :=
  match p with
  | Main spec s => exists f r, trace f spec s = Some r
  | Fwd flag buf spec s => exists f r fl s', forward_loop fl flag buf s = Ok (tt, s') /\ trace f spec s' = Some r
  end.

Lemma going_step : forall p q, step c p q -> going p -> going q.
Proof.
  intros p q [spec s buf s1 E0 ET IS|spec s buf s1 spec' s2 E0 ET IS ED
             |flag buf spec s buf' s' E0 NE ET|flag buf spec s C] H; cbn [going] in *.
  - destruct H as (f & r & H). destruct f as [|f]; [discriminate|]. cbn [trace] in H. rewrite E0, ET in H.
    destruct (ok buf spec); [|discriminate]. unfold load_step in H. rewrite ET, IS in H. cbn [negb] in H. eauto.
  - destruct H as (f & r & H). destruct f as [|f]; [discriminate|]. cbn [trace] in H. rewrite E0, ET in H.
    destruct (ok buf spec); [|discriminate]. unfold load_step in H. rewrite ET, IS in H. cbn [negb] in H.
    unfold bind in H. rewrite ED in H. destruct (forward_to (end_marker buf) s2) as [[[] s3]| | | |] eqn:EF; try discriminate.
    cbn [ret] in H. unfold ret in H. exists f, r. unfold forward_to in EF. eauto.
  - destruct H as (f & r & fl & s2 & EF & H). destruct fl as [|fl]; [discriminate|]. cbn [forward_loop] in EF.
    apply bytes_eqb_neq in NE. rewrite E0, NE in EF. cbn [orb] in EF. rewrite ET in EF. exists f, r. eauto.
  - destruct H as (f & r & fl & s2 & EF & H). destruct fl as [|fl]; [discriminate|]. cbn [forward_loop] in EF.
    assert (B : eofb s || bytes_eqb buf flag = true).
    { destruct C as [-> | ->]; [reflexivity|]. apply orb_true_iff. right. apply bytes_eqb_eq. reflexivity. }
    rewrite B in EF. injection EF as <-. eauto.
Qed.

Lemma trace_meets : forall b f r, trace f spec_default (opened b) = Some r ->
  forall name spec s, meets c b name spec s -> ok name spec = true.
Proof.
  intros b f r H name spec s (s0 & (n & R) & E0 & ET).
  assert (G : going (Main spec s0)).
  { assert (G0 : forall n p q, steps c n p q -> going p -> going q).
    { intros m p q HS. induction HS as [|m p q t HS1 HS IH]; [auto|]. intro Hp. apply IH. eapply going_step; eassumption. }
    apply (G0 n (start b)); [exact R|]. cbn [going start]. eauto. }
  destruct G as (g & r' & G). destruct g as [|g]; [discriminate|]. cbn [trace] in G. rewrite E0, ET in G.
  destruct (ok name spec); [reflexivity|discriminate].
Qed.

Lemma trace_loop : forall f spec s r, trace f spec s = Some r -> load_loop f c spec s = Ok r.
Proof.
  induction f as [|f IH]; intros spec s r H; [discriminate|]. cbn [trace load_loop] in *.
  destruct (eofb s); [injection H as <-; reflexivity|]. destruct (rd_token [] s) as [buf s1] eqn:ET.
  destruct (ok buf spec); [|discriminate]. destruct (load_step c spec s) as [[spec' s']| | | |]; try discriminate.
  cbn [obind fst snd]. apply IH. exact H.
Qed.

Lemma trace_ends : forall b f r, trace f spec_default (opened b) = Some r -> ends_with c b (fst r).
Proof.
  intros b f [raw s] H. apply trace_loop in H. destruct (loop_steps _ _ _ _ _ _ H) as (n & S & E).
  exists s. split; [exists n; exact S|exact E].
Qed.
(** What has been read at the points on the way. *)
Definition going_to (r : MshSpec * istream) (p : point) : Prop :=
  match p with
  | Main spec s => exists f, trace f spec s = Some r
  | Fwd flag buf spec s => exists f fl s', forward_loop fl flag buf s = Ok (tt, s') /\ trace f spec s' = Some r
  end.

Lemma going_to_step : forall r p q, step c p q -> going_to r p -> going_to r q.
Proof.
  intros r p q [spec s buf s1 E0 ET IS|spec s buf s1 spec' s2 E0 ET IS ED
             |flag buf spec s buf' s' E0 NE ET|flag buf spec s C] H; cbn [going_to] in *.
  - destruct H as (f & H). destruct f as [|f]; [discriminate|]. cbn [trace] in H. rewrite E0, ET in H.
    destruct (ok buf spec); [|discriminate]. unfold load_step in H. rewrite ET, IS in H. cbn [negb] in H. eauto.
  - destruct H as (f & H). destruct f as [|f]; [discriminate|]. cbn [trace] in H. rewrite E0, ET in H.
    destruct (ok buf spec); [|discriminate]. unfold load_step in H. rewrite ET, IS in H. cbn [negb] in H.
    unfold bind in H. rewrite ED in H. destruct (forward_to (end_marker buf) s2) as [[[] s3]| | | |] eqn:EF; try discriminate.
    unfold ret in H. exists f. unfold forward_to in EF. eauto.
  - destruct H as (f & fl & s2 & EF & H). destruct fl as [|fl]; [discriminate|]. cbn [forward_loop] in EF.
    apply bytes_eqb_neq in NE. rewrite E0, NE in EF. cbn [orb] in EF. rewrite ET in EF. exists f. eauto.
  - destruct H as (f & fl & s2 & EF & H). destruct fl as [|fl]; [discriminate|]. cbn [forward_loop] in EF.
    assert (B : eofb s || bytes_eqb buf flag = true).
    { destruct C as [-> | ->]; [reflexivity|]. apply orb_true_iff. right. apply bytes_eqb_eq. reflexivity. }
    rewrite B in EF. injection EF as <-. eauto.
Qed.

Lemma trace_points : forall (Q : MshSpec -> Prop) b f r, trace f spec_default (opened b) = Some r ->
  (forall name spec, ok name spec = true -> Q spec) -> Q (fst r) -> forall pt, reached c b pt -> Q (read_at pt).
Proof.
  intros Q b f r H OK QR pt (n & R).
  assert (T : forall g spec s, trace g spec s = Some r -> Q spec).
  { intros [|g] spec s X; [discriminate|]. cbn [trace] in X. destruct (eofb s); [injection X as <-; exact QR|].
    destruct (rd_token [] s) as [buf s1]. destruct (ok buf spec) eqn:K; [exact (OK _ _ K)|discriminate]. }
  assert (G : going_to r pt).
  { assert (G0 : forall n p q, steps c n p q -> going_to r p -> going_to r q).
    { intros m p q HS. induction HS as [|m p q t HS1 HS IH]; [auto|]. intro Hp. apply IH. eapply going_to_step; eassumption. }
    apply (G0 n (start b)); [exact R|]. cbn [going_to start]. eauto. }
  destruct pt as [spec s|flag buf spec s]; cbn [read_at].
  - destruct G as (g & G). eapply T. exact G.
  - destruct G as (g & fl & s' & _ & G). eapply T. exact G.
Qed.
End Check.

Definition is_22 (name : bytes) (spec : MshSpec) : bool :=
  negb (bytes_eqb name (str "$Nodes") || bytes_eqb name (str "$Elements")) ||
  bytes_eqb (version (mesh_format spec)) (str "2.2").

Lemma trace_22 : forall c b f r, trace is_22 c f spec_default (opened b) = Some r ->
  version (mesh_format (fst r)) = str "2.2" -> file_22 c b (fst r).
Proof.
  intros c b f r H V. split; [exact (trace_ends is_22 c b f r H)|]. split; [|exact V].
  intros name spec s HM HN. pose proof (trace_meets is_22 c b f r H name spec s HM) as K. unfold is_22 in K.
  apply orb_true_iff in K. destruct K as [K|K]; [|apply bytes_eqb_eq; exact K].
  apply negb_true_iff, orb_false_iff in K. destruct K as [K1 K2]. apply bytes_eqb_neq in K1, K2.
  destruct HN; contradiction.
Qed.
