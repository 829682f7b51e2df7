(** 2.2 files of one encoding put one after the other: nodes and elements add up. *)

From Verif Require Import Model.Save Spec.Steps Spec.Warnings Spec.Joined Spec.Any22
  Proofs.BytesP Proofs.RtBase Proofs.Compose Proofs.Rt41 Proofs.PostP Proofs.Load22P Proofs.File22P Proofs.EntP Proofs.ElemP Proofs.Text22P Proofs.Text41P Proofs.Any22P Proofs.JoinedP.

Ltac Zify.zify_post_hook ::= idtac.

Lemma after22_format : forall ascii qs s, mesh_format (fold_left (after22 ascii) qs s) = mesh_format s.
Proof.
  intros ascii qs. induction qs as [|q qs IH]; intro s; [reflexivity|]. cbn [fold_left]. rewrite IH.
  destruct q as [p|p]; [destruct p; reflexivity|apply after_fmt].
Qed.

Lemma set_own_format : forall s f, mesh_format s = f -> set_format f s = s.
Proof. intros [] f <-. reflexivity. Qed.

Lemma parts_app : forall qs qs', parts_of (qs ++ qs') = parts_of qs ++ parts_of qs'.
Proof. intros. apply flat_map_app. Qed.

Lemma all_fit_app : forall c ascii ps qs spec, all_fit c ascii spec (ps ++ qs) ->
  all_fit c ascii spec ps /\ all_fit c ascii (fold_left (part_after ascii) ps spec) qs.
Proof.
  intros c ascii ps. induction ps as [|p ps IH]; intros qs spec H; [split; [exact I|exact H]|].
  destruct H as [H1 H2]. destruct (IH _ _ H2) as [A B]. split; [split; assumption|exact B].
Qed.

Lemma any22_on : forall c ascii qs b spec, any22 ascii qs b -> Forall (sec22_ok c ascii) qs ->
  all_fit c ascii (bare (set_format (format_22 ascii) spec)) (parts_of qs) ->
  LOADSw c (fun _ => True) (unknown_of (map sec_name (extras_of qs))) b spec
    (fold_left (after22 ascii) qs (set_format (format_22 ascii) spec)) /\
  bare (fold_left (after22 ascii) qs (set_format (format_22 ascii) spec)) =
    fold_left (part_after ascii) (parts_of qs) (bare (set_format (format_22 ascii) spec)).
Proof.
  intros c ascii qs b spec (l & h & r & l' & HL & HH & HR & HL' & ->) OK AF.
  destruct (secs22_LOADS c ascii qs r (set_format (format_22 ascii) spec) HR OK) as [LD EB].
  { split; reflexivity. }
  { exact AF. }
  split; [|exact EB].
  eapply (LOADSw_app _ _ []); [apply LOADS1_LOADS, loose_LOADS; exact HL|].
  eapply (LOADSw_app _ _ []); [apply LOADS1_LOADS, (header_LOADS_any c "2.2"); [right; reflexivity|exact HH]|].
  rewrite <- (app_nil_r (unknown_of _)).
  eapply LOADSw_app; [exact LD|apply LOADS1_LOADS, loose_LOADS; exact HL'].
Qed.

Lemma files22_on : forall c ascii (ws : list (list sec22 * bytes)) spec,
  Forall (fun w => any22 ascii (fst w) (snd w) /\ Forall (sec22_ok c ascii) (fst w)) ws -> mesh_format spec = format_22 ascii ->
  all_fit c ascii (bare spec) (parts_of (flat_map fst ws)) ->
  (exists l, LOADSw c (fun _ => True) l (flat_map snd ws) spec (fold_left (after22 ascii) (flat_map fst ws) spec)) /\
  bare (fold_left (after22 ascii) (flat_map fst ws) spec) = fold_left (part_after ascii) (parts_of (flat_map fst ws)) (bare spec).
Proof.
  intros c ascii ws. induction ws as [|w ws IH]; intros spec F FM AF.
  - split; [exists []; apply LOADSw_nil; exact I|reflexivity].
  - destruct (Forall_inv F) as [W OK]. cbn [flat_map] in AF |- *. rewrite parts_app in AF |- *.
    apply all_fit_app in AF. destruct AF as [A1 A2].
    destruct (any22_on c ascii (fst w) (snd w) spec W OK) as [L E]; rewrite (set_own_format _ _ FM) in *; [exact A1|].
    rewrite <- E in A2.
    destruct (IH (fold_left (after22 ascii) (fst w) spec) (Forall_inv_tail F)) as [[l L'] E']; [|exact A2|].
    + rewrite after22_format. exact FM.
    + rewrite !fold_left_app. split; [|rewrite E', E; reflexivity].
      eexists. eapply LOADSw_app; [exact L|exact L'].
Qed.

Lemma files22_joined : forall c ascii (ws : list (list sec22 * bytes)) lo hi, ws <> [] ->
  Forall (fun w => any22 ascii (fst w) (snd w) /\ Forall (sec22_ok c ascii) (fst w)) ws ->
  loadable c (parts_of (flat_map fst ws)) lo hi ->
  exists s, load_msh c (flat_map snd ws) = Ok s /\ content22 ascii (flat_map fst ws) lo hi s.
Proof.
  intros c ascii ws lo hi N F HD. set (qs := flat_map fst ws) in *.
  set (s0 := set_format (format_22 ascii) spec_default).
  assert (OK : Forall (sec22_ok c ascii) qs).
  { unfold qs. clear N HD qs. induction F as [|w ws [_ A] F IH]; [constructor|]. cbn [flat_map]. apply Forall_app; auto. }
  assert (HO : Forall (part_ok ascii) (parts_of qs)).
  { apply Forall_forall. intros p Hp. apply in_flat_map in Hp. destruct Hp as (q & Hq & Hp).
    rewrite Forall_forall in OK. specialize (OK q Hq). destruct q; [|destruct Hp]. destruct Hp as [<-|[]]. exact OK. }
  assert (HI : inv22 c s0).
  { pose proof (inv22_default c) as [I1 I2 I3 I4 I5 I6 I7 I8 I9 I10 I11]. split; assumption. }
  pose proof HD as [D1 D2 D3 D4 D5 D6 D7 D8 D9].
  destruct (parts_fold c ascii (parts_of qs) s0 HO) as (HA & HR' & HP).
  { split; reflexivity. }
  { exact HI. }
  { apply Forall_flat in D9. rewrite Forall_forall in *. intros p Hp. split; [apply D7; exact Hp|].
    rewrite Forall_forall. intros x Hx. specialize (D9 p Hp). rewrite Forall_forall in D9. exact (D9 x Hx). }
  { exact D6. }
  { exact D8. }
  set (raw := fold_left (after22 ascii) qs s0).
  assert (LD : (exists l, LOADSw c (fun _ => True) l (flat_map snd ws) spec_default raw) /\
               bare raw = fold_left (part_after ascii) (parts_of qs) s0).
  { destruct ws as [|w ws]; [contradiction|]. destruct (Forall_inv F) as [W K].
    unfold raw, qs in *. cbn [flat_map] in *. rewrite parts_app in *.
    apply all_fit_app in HA. destruct HA as [A1 A2].
    destruct (any22_on c ascii (fst w) (snd w) spec_default W K A1) as [L E].
    change (bare (set_format (format_22 ascii) spec_default)) with s0 in E. fold s0 in L, E. rewrite <- E in A2.
    destruct (files22_on c ascii ws (fold_left (after22 ascii) (fst w) s0) (Forall_inv_tail F)) as [[l L'] E'];
      [rewrite after22_format; reflexivity|exact A2|].
    rewrite !fold_left_app. split; [eexists; eapply LOADSw_app; [exact L|exact L']|]. rewrite E', E. reflexivity. }
  destruct LD as [[l LD] EB]. rewrite <- EB in HR', HP.
  destruct (raw_mesh c ascii (parts_of qs) lo hi (bare raw) HO HD HR' HP) as (sb & PB & MB).
  destruct (post_bare c raw sb PB) as (s & PS & ES). exists s. split.
  - rewrite (LOADSw_file _ _ _ _ _ LD). exact PS.
  - pose proof (extras_fold ascii qs s0 s0 ltac:(split; reflexivity)) as [X1 X2 X3 X4 X5 X6 X7]. fold raw in X1, X2, X3, X4, X5, X6, X7.
    rewrite fold_content in X1, X2, X3, X4, X5, X6, X7. pose proof (post_extras c raw s PS) as [Y1 Y2 Y3 Y4 Y5 Y6 Y7].
    split; [rewrite ES; exact MB|etransitivity; [eassumption|]..]; assumption.
Qed.
