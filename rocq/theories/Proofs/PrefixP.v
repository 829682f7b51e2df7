(** The section loop on a file and on its beginnings. *)

From Verif Require Import Model.LoadMsh Spec.Steps Spec.Prefix Spec.Files22 Proofs.BytesP Proofs.Mono Proofs.Fuel Proofs.Hoare Proofs.WeightP
  Proofs.ExtP Proofs.File22P Proofs.ExtendP.

Ltac Zify.zify_post_hook ::= idtac.

Definition pmore (q : bytes) (p : point) : point :=
  match p with Main spec s => Main spec (more q s) | Fwd flag buf spec s => Fwd flag buf spec (more q s) end.

Lemma stream_pmore : forall q p, stream_of (pmore q p) = more q (stream_of p).
Proof. intros q []; reflexivity. Qed.
Lemma read_pmore : forall q p, read_at (pmore q p) = read_at p.
Proof. intros q []; reflexivity. Qed.
Lemma start_pmore : forall p q, start (p ++ q) = pmore q (start p).
Proof. reflexivity. Qed.

Lemma step_adv : forall c p p', step c p p' -> adv (stream_of p) (stream_of p').
Proof.
  intros c p p' H. destruct H as [spec s buf s1 E ET IS|spec s buf s1 spec' s2 E ET IS ED
    |flag buf spec s buf' s' E N ET|flag buf spec s C]; cbn [stream_of].
  - pose proof (adv_rd_token [] s) as A. rewrite ET in A. exact A.
  - pose proof (adv_rd_token [] s) as A. rewrite ET in A. eapply adv_trans; [exact A|]. eapply mono_dispatch. exact ED.
  - pose proof (adv_rd_token buf s) as A. rewrite ET in A. exact A.
  - apply adv_refl.
Qed.
Lemma steps_adv : forall c n p p', steps c n p p' -> adv (stream_of p) (stream_of p').
Proof. intros c n p p' H. induction H; [apply adv_refl|]. eapply adv_trans; [eapply step_adv; eassumption|assumption]. Qed.
Lemma good_before : forall s s', adv s s' -> good s' = true -> good s = true.
Proof. intros s s' A G. destruct (good s) eqn:X; [reflexivity|]. rewrite (adv_good _ _ A X) in G. discriminate. Qed.

Lemma good_eof : forall s, good s = true -> eofb s = false.
Proof. intros s G. apply good_flags in G. apply G. Qed.

(** ** Both directions *)
Lemma step_forth : forall c q p p', step c p p' -> good (stream_of p') = true -> step c (pmore q p) (pmore q p').
Proof.
  intros c q p p' H G. destruct H as [spec s buf s1 E ET IS|spec s buf s1 spec' s2 E ET IS ED
    |flag buf spec s buf' s' E N ET|flag buf spec s C]; cbn [stream_of pmore] in *.
  - pose proof (token_more [] s q) as P. rewrite ET in P. eapply step_word; [exact E|apply P; exact G|exact IS].
  - pose proof (token_more [] s q) as P. rewrite ET in P.
    assert (G1 : good s1 = true) by (eapply good_before; [eapply mono_dispatch; exact ED|exact G]).
    eapply step_section; [exact E|apply P; exact G1|exact IS|]. eapply (proj1 (proj2 (ext_dispatch c buf spec))); eassumption.
  - pose proof (token_more buf s q) as P. rewrite ET in P. eapply step_skip; [exact E|exact N|apply P; exact G].
  - apply step_found. exact C.
Qed.
Lemma steps_forth : forall c q n p p', steps c n p p' -> good (stream_of p') = true -> steps c n (pmore q p) (pmore q p').
Proof.
  intros c q n p p' H. induction H as [p|n p r p' H1 H2 IH]; intro G; [constructor|].
  econstructor; [|apply IH; exact G]. eapply step_forth; [exact H1|]. eapply good_before; [eapply steps_adv; exact H2|exact G].
Qed.

Definition far (q : bytes) (s : istream) : Prop := good s = true /\ (List.length q < List.length (rest s))%nat.
Lemma far_before : forall q s s', adv s s' -> far q s' -> far q s.
Proof. intros q s s' A [G L]. split; [eapply good_before; eassumption|]. destruct A. lia. Qed.

Lemma token_back : forall o s q buf t, rd_token o (more q s) = (buf, t) -> far q t -> exists s', rd_token o s = (buf, s') /\ t = more q s'.
Proof.
  intros o s q buf t E [G L]. destruct (proj2 (proj2 (ext_token o)) s buf t q) as (s' & E' & ->); [unfold op; rewrite E; reflexivity|exact G|exact L|].
  exists s'. split; [|reflexivity]. unfold op in E'. injection E' as E'. exact E'.
Qed.
Lemma step_back : forall c q p r, step c (pmore q p) r -> far q (stream_of r) -> exists p', step c p p' /\ r = pmore q p'.
Proof.
  intros c q p r H F.
  assert (GEN : forall p0, step c p0 r -> p0 = pmore q p -> exists p', step c p p' /\ r = pmore q p'); [|exact (GEN _ H eq_refl)].
  clear H. intros p0 H EP. destruct H as [spec s buf s1 E ET IS|spec s buf s1 spec' s2 E ET IS ED
    |flag buf spec s buf' s' E N ET|flag buf spec s C]; destruct p as [spec0 s0|flag0 buf0 spec0 s0]; try discriminate; injection EP; intros; subst; cbn [stream_of] in F.
  - destruct (token_back _ _ _ _ _ ET F) as (s' & E' & ->). exists (Main spec0 s'). split; [eapply step_word; eassumption|reflexivity].
  - assert (F1 : far q s1) by (eapply far_before; [eapply mono_dispatch; eassumption|exact F]).
    destruct (token_back _ _ _ _ _ ET F1) as (s' & E' & ->). destruct F as [G L].
    destruct (proj2 (proj2 (ext_dispatch c buf spec0)) _ _ _ _ ED G L) as (s'' & E'' & ->).
    exists (Fwd (end_marker buf) [] spec' s''). split; [eapply step_section; eassumption|reflexivity].
  - destruct (token_back _ _ _ _ _ ET F) as (s'' & E' & ->). exists (Fwd flag0 buf' spec0 s''). split; [eapply step_skip; eassumption|reflexivity].
  - exists (Main spec0 s0). split; [apply step_found; assumption|reflexivity].
Qed.
Lemma steps_back : forall c q n p r, steps c n (pmore q p) r -> far q (stream_of r) -> exists p', steps c n p p' /\ r = pmore q p'.
Proof.
  intros c q n. induction n as [|n IH]; intros p r H F; inversion H; subst.
  - exists p. split; [constructor|reflexivity].
  - assert (F1 : far q (stream_of q0)) by (eapply far_before; [eapply steps_adv; eassumption|exact F]).
    destruct (step_back _ _ _ _ H1 F1) as (p1 & S1 & ->). destruct (IH _ _ H2 F) as (p' & S' & ->).
    exists p'. split; [econstructor; eassumption|reflexivity].
Qed.

(** ** The loop is deterministic *)
Lemma step_det : forall c p a b, step c p a -> step c p b -> a = b.
Proof.
  intros c p a b H1 H2.
  destruct H1; inversion H2; subst;
    repeat match goal with A : rd_token ?o ?s = _, B : rd_token ?o ?s = _ |- _ => rewrite A in B; injection B; intros; subst; clear B end;
    repeat match goal with A : dispatch ?c ?n ?x ?s = _, B : dispatch ?c ?n ?x ?s = _ |- _ => rewrite A in B; injection B; intros; subst; clear B end;
    repeat match goal with A : _ \/ _ |- _ => destruct A end; try congruence.
Qed.
Lemma steps_det : forall c n p a, steps c n p a -> forall b, steps c n p b -> a = b.
Proof.
  intros c n p a H. induction H as [p|n p q a H1 H2 IH]; intros b HB; inversion HB; subst; [reflexivity|].
  apply IH. rewrite (step_det _ _ _ _ H1 H0). assumption.
Qed.
Lemma steps_split : forall c n p a, steps c n p a -> forall m, (m <= n)%nat -> exists b, steps c m p b /\ steps c (n - m) b a.
Proof.
  intros c n p a H. induction H as [p|n p q a H1 H2 IH]; intros m L.
  - replace m with O by lia. exists p. split; constructor.
  - destruct m as [|m]; [exists p; split; [constructor|econstructor; eassumption]|].
    destruct (IH m ltac:(lia)) as (b & B1 & B2). exists b. split; [econstructor; eassumption|exact B2].
Qed.

(** ** The last good loop test *)
Lemma stuck_stays : forall c n p r, steps c n p r -> stuck (stream_of p) -> stuck (stream_of r).
Proof.
  intros c n p r H S. destruct (stuck_forever c n p S) as (r' & H' & S'). rewrite (steps_det _ _ _ _ H _ H'). exact S'.
Qed.

(** After a failed read at the end of the file, nothing more happens. *)
Lemma ended : forall c n p raw st, steps c n p (Main raw st) -> eofb (stream_of p) = true -> read_at p = raw.
Proof.
  intros c n p raw st H E. remember (Main raw st) as r eqn:ER. destruct H as [p|n p q r H1 H2]; [subst p; reflexivity|]. subst r.
  destruct H1 as [spec s buf s1 E0 ET IS|spec s buf s1 spec' s2 E0 ET IS ED|flag buf spec s buf' s' E0 N ET|flag buf spec s C];
    cbn [stream_of read_at] in *; try congruence.
  inversion H2; subst; [reflexivity|]. match goal with A : step _ (Main _ _) _ |- _ => inversion A; subst; congruence end.
Qed.

Lemma last_good : forall c n p raw st, steps c n p (Main raw st) -> eofb st = true -> good (stream_of p) = true ->
  exists m g g', steps c m p g /\ good (stream_of g) = true /\ step c g g' /\ good (stream_of g') = false /\ read_at g' = raw.
Proof.
  intros c n. induction n as [|n IH]; intros p raw st H E G; inversion H; subst.
  - apply good_eof in G. cbn [stream_of] in G. congruence.
  - destruct (good (stream_of q)) eqn:GQ.
    + destruct (IH _ _ _ H2 E GQ) as (m & g & g' & S1 & S2). exists (S m), g, g'. split; [econstructor; eassumption|exact S2].
    + exists O, p, q. split; [constructor|]. split; [exact G|]. split; [assumption|]. split; [exact GQ|].
      destruct (good_or_stuck (stream_of q)) as [X|[X|X]]; [congruence|eapply ended; eassumption|].
      pose proof (stuck_stays _ _ _ _ H2 X) as [_ Y]. cbn [stream_of] in Y. congruence.
Qed.

Lemma last_is_last : forall c p0 m g g', steps c m p0 g -> step c g g' -> good (stream_of g') = false ->
  forall n r, steps c n p0 r -> good (stream_of r) = true -> exists k, steps c k r g.
Proof.
  intros c p0 m g g' H1 H2 B n r HR G. destruct (Nat.le_gt_cases n m) as [L|L].
  - destruct (steps_split _ _ _ _ H1 n L) as (b & B1 & B2). rewrite (steps_det _ _ _ _ HR _ B1). eauto.
  - exfalso. destruct (steps_split _ _ _ _ HR (m + 1)%nat ltac:(lia)) as (b & B1 & B2).
    assert (X : steps c (m + 1) p0 g') by (eapply steps_trans; [exact H1|econstructor; [exact H2|constructor]]).
    rewrite (steps_det _ _ _ _ B1 _ X) in B2. rewrite (good_before _ _ (steps_adv _ _ _ _ B2) G) in B. discriminate.
Qed.

(** ** Debug builds: a section that hits the end of the file is not taken *)
Section Debug.
Variable c : cfg.
Hypothesis D : ndebug c = false.

Lemma ends_map : forall A B (m : M A) (f : A -> B), ends m -> ends (bind m (fun a => ret (f a))).
Proof. intros A B m f H. apply ends_first; [exact H|intro; apply keeps_ret]. Qed.
Lemma ends_throw : forall A e, ends (@throw A e).
Proof. intros A e s a s' E. discriminate. Qed.

Lemma nodes_ends : forall spec, version (mesh_format spec) <> str "2.2" -> ends (load_nodes c spec).
Proof.
  intros spec V. apply (bytes_eqb_neq _ v22s) in V. unfold load_nodes. cbv zeta. rewrite V. apply ends_map.
  destruct (bytes_eqb _ v41s); [apply nodes41_ends; exact D|apply ends_throw].
Qed.
Lemma elements_ends : forall spec, version (mesh_format spec) <> str "2.2" -> ends (load_elements c spec).
Proof.
  intros spec V. apply (bytes_eqb_neq _ v22s) in V. unfold load_elements. cbv zeta. rewrite V.
  destruct (bytes_eqb _ v41s); [apply ends_map; apply elements41_ends; exact D|apply ends_throw].
Qed.

Lemma same_refl : forall s, same_mesh s s.
Proof. intro s. repeat split. Qed.

(** Either the stream is good after the section, or the mesh is as before. *)
Definition careful (m : M MshSpec) (spec : MshSpec) : Prop :=
  forall s spec' s', m s = Ok (spec', s') -> good s' = true \/ same_mesh spec spec'.
Lemma careful_ends : forall m spec, ends m -> careful m spec.
Proof. intros m spec H s spec' s' E. left. eapply H. exact E. Qed.
Lemma careful_same : forall m spec, post m (same_mesh spec) -> careful m spec.
Proof. intros m spec H s spec' s' E. right. eapply H. exact E. Qed.

Lemma dispatch_careful : forall name spec, version (mesh_format spec) <> str "2.2" -> careful (dispatch c name spec) spec.
Proof.
  intros name spec V. unfold dispatch.
  repeat match goal with |- careful (if ?b then _ else _) _ => destruct b end.
  - apply careful_same. unfold load_mesh_format. cbv zeta. post_frame ltac:(repeat split).
  - unfold load_entities. cbv zeta. destruct (bytes_eqb _ v41s).
    + apply careful_ends. apply ends_map. apply entities41_ends. exact D.
    + destruct (bytes_eqb _ v22s); [apply careful_ends, ends_throw|].
      intros s spec' s' E. injection E as <- <-. right. apply same_refl.
  - apply careful_ends, groups_ends. exact D.
  - apply careful_ends, nodes_ends. exact V.
  - apply careful_ends, elements_ends. exact V.
  - apply careful_ends. unfold load_node_data. apply ends_map, data_ends. exact D.
  - apply careful_ends. unfold load_element_data. apply ends_map, data_ends. exact D.
  - apply careful_ends. unfold load_element_node_data. apply ends_map, data_ends. exact D.
  - apply careful_same. unfold load_nanospline_format. post_frame ltac:(repeat split).
  - apply careful_same. unfold load_curves. post_frame ltac:(repeat split).
  - apply careful_same. unfold load_patches. post_frame ltac:(repeat split).
  - intros s spec' s' E. injection E as <- <-. right. apply same_refl.
Qed.

Lemma last_same : forall g g', step c g g' -> good (stream_of g') = false ->
  version (mesh_format (read_at g)) <> str "2.2" -> same_mesh (read_at g) (read_at g').
Proof.
  intros g g' H B V. destruct H as [spec s buf s1 E ET IS|spec s buf s1 spec' s2 E ET IS ED
    |flag buf spec s buf' s' E N ET|flag buf spec s C]; cbn [stream_of read_at] in *; try apply same_refl.
  destruct (dispatch_careful _ _ V _ _ _ ED) as [X|X]; [congruence|exact X].
Qed.
End Debug.

Lemma opened_good : forall s, good s = true -> s = opened (rest s).
Proof. intros [r e f] G. apply good_flags in G. cbn [eofb failb] in G. destruct G as [-> ->]. reflexivity. Qed.

(** ** The version cannot be cut short *)

Lemma format_version : forall spec s spec' s', load_mesh_format spec s = Ok (spec', s') ->
  version (mesh_format spec') = fst (rd_token (version (mesh_format spec)) s) /\
  (version (mesh_format spec') = v22s \/ version (mesh_format spec') = v41s).
Proof.
  intros spec s spec' s' E. unfold load_mesh_format in E. cbv zeta in E. unfold bind in E at 1. unfold op in E at 1.
  destruct (rd_token (version (mesh_format spec)) s) as [v s1]. cbn [fst].
  match type of E with (if ?b then _ else _) _ = _ => destruct b eqn:EV end; [discriminate|].
  assert (X : version (mesh_format spec') = v).
  { revert E. match goal with |- ?m _ = _ -> _ => assert (P : post m (fun x => version (mesh_format x) = v)) end.
    { post_frame ltac:(reflexivity). }
    intro E. eapply P. exact E. }
  split; [exact X|]. rewrite X. destruct (bytes_eqb v v22s) eqn:B1; [left; apply bytes_eqb_eq; exact B1|].
  destruct (bytes_eqb v v41s) eqn:B2; [right; apply bytes_eqb_eq; exact B2|]. discriminate.
Qed.

Lemma token_longer : forall b q t, take_token b = (t, []) -> exists t', fst (take_token (b ++ q)) = t ++ t'.
Proof.
  induction b as [|x b IH]; intros q t H; cbn [take_token app] in *.
  - injection H as <-. eexists. reflexivity.
  - destruct (is_ws x); [discriminate|]. destruct (take_token b) as [t0 r0] eqn:E. injection H as <- ->.
    destruct (IH q t0 eq_refl) as (t' & E'). exists t'. destruct (take_token (b ++ q)). cbn [fst] in *. rewrite E'. reflexivity.
Qed.

(** A word cut short is a beginning of the whole word. *)
Lemma rd_token_longer : forall o s q, good s = true -> fst (rd_token o s) = o \/
  exists t', fst (rd_token o (more q s)) = fst (rd_token o s) ++ t'.
Proof.
  intros o s q G. destruct (good (snd (rd_token o s))) eqn:B.
  { right. exists []. rewrite (token_more o s q B), app_nil_r. reflexivity. }
  unfold rd_token in *. destruct (sentry s) as [ok s1] eqn:ES. pose proof (sentry_more s q) as HM. rewrite ES in HM. cbn [fst snd] in HM.
  destruct ok; [|left; reflexivity]. right. destruct HM as (-> & N & F1 & F2); [reflexivity|]. cbn [more rest].
  destruct (take_token (rest s1)) as [t r] eqn:ET. cbn [fst snd] in *. apply at_end_bad in B; try assumption. subst r.
  destruct (token_longer _ q _ ET) as (t' & E'). exists t'. destruct (take_token (rest s1 ++ q)). exact E'.
Qed.

Lemma next_step : forall c b raw pt, ends_with c b raw -> reached c b pt -> eofb (stream_of pt) = false -> exists pt', step c pt pt'.
Proof.
  intros c b raw pt (st & (n & R) & E) (m & RM) EF. destruct (Nat.le_gt_cases m n) as [L|L].
  - destruct (steps_split _ _ _ _ R m L) as (x & B1 & B2). rewrite (steps_det _ _ _ _ B1 _ RM) in B2.
    inversion B2; subst; [cbn [stream_of] in EF; congruence|eauto].
  - exfalso. destruct (steps_split _ _ _ _ RM n ltac:(lia)) as (x & B1 & B2). rewrite (steps_det _ _ _ _ B1 _ R) in B2.
    inversion B2; subst; [lia|]. match goal with A : step _ (Main _ _) _ |- _ => inversion A; subst; congruence end.
Qed.

Lemma last_version : forall c p q s g g', never_22 c (p ++ q) -> load_msh c (p ++ q) = Ok s ->
  reached c p g -> good (stream_of g) = true -> step c g g' -> good (stream_of g') = false -> version (mesh_format (read_at g')) <> str "2.2".
Proof.
  intros c p q s g g' NV L (m & R) G H B.
  assert (RG : reached c (p ++ q) (pmore q g)) by (exists m; rewrite start_pmore; apply steps_forth; assumption).
  assert (V0 : version (mesh_format (read_at g)) <> str "2.2") by (rewrite <- (read_pmore q); apply NV; exact RG).
  destruct (load_ends _ _ _ L) as (raw & EW & _).
  destruct (next_step _ _ _ _ EW RG) as (n & SN); [rewrite stream_pmore; apply good_eof; exact G|].
  assert (V1 : version (mesh_format (read_at n)) <> str "2.2").
  { apply NV. destruct RG as (k & RK). exists (k + 1)%nat. eapply steps_trans; [exact RK|]. econstructor; [exact SN|constructor]. }
  destruct H as [spec s0 buf s1 E ET IS|spec s0 buf s1 spec' s2 E ET IS ED
    |flag buf spec s0 buf' s' E N ET|flag buf spec s0 C]; cbn [stream_of read_at pmore] in *; try exact V0.
  destruct (bytes_eqb buf (str "$MeshFormat")) eqn:EM.
  2:{ assert (P : post (dispatch c buf spec) (fun x => mesh_format x = mesh_format spec)).
      { unfold dispatch. rewrite EM.
        repeat match goal with |- post (if ?b then _ else _) _ => destruct b end;
          unfold load_entities, load_physical_groups, load_nodes, load_elements, load_node_data, load_element_data, load_element_node_data,
            load_nanospline_format, load_curves, load_patches; cbv zeta; post_frame ltac:(reflexivity). }
      rewrite (P _ _ _ ED). exact V0. }
  apply bytes_eqb_eq in EM. subst buf. change (dispatch c (str "$MeshFormat") spec) with (load_mesh_format spec) in ED.
  destruct (format_version _ _ _ _ ED) as [EV _].
  destruct (good s1) eqn:G1.
  2:{ rewrite EV, (rd_token_bad _ _ G1). exact V0. }
  destruct (rd_token_longer (version (mesh_format spec)) s1 q G1) as [X|(t' & X)]; [rewrite EV, X; exact V0|].
  pose proof (token_more [] s0 q) as TM. rewrite ET in TM. specialize (TM G1). cbn [fst snd] in TM.
  assert (exists spec2 s3, load_mesh_format spec (more q s1) = Ok (spec2, s3) /\ read_at n = spec2) as (spec2 & s3 & E2 & EN).
  { inversion SN; subst.
    - match goal with A : rd_token [] (more q s0) = _ |- _ => rewrite TM in A; injection A; intros; subst; discriminate end.
    - match goal with A : rd_token [] (more q s0) = _ |- _ => rewrite TM in A; injection A; intros; subst end.
      eexists _, _. split; [eassumption|reflexivity]. }
  destruct (format_version _ _ _ _ E2) as [EV2 OR]. rewrite EN in V1. rewrite X in EV2.
  intro Y. rewrite EV in Y. rewrite Y in EV2. destruct OR as [Z|Z]; [elim V1; exact Z|]. rewrite EV2 in Z. discriminate.
Qed.

Theorem prefix_mesh : forall c p q s s', ndebug c = false -> never_22 c (p ++ q) -> load_msh c (p ++ q) = Ok s -> load_msh c p = Ok s' ->
  exists pt u, passes c p q pt u /\ same_mesh (read_at pt) s' /\
    forall pt' u', passes c p q pt' u' -> u' <> [] -> (List.length u <= List.length u')%nat.
Proof.
  intros c p q s s' D N LA L. destruct (load_ends _ _ _ L) as (raw & (st & (n & R) & E) & PP).
  destruct (last_good _ _ _ _ _ R E eq_refl) as (m & g & g' & S1 & G & S2 & B & ER).
  assert (RG : reached c (p ++ q) (pmore q g)) by (exists m; rewrite start_pmore; apply steps_forth; assumption).
  assert (SM : same_mesh (read_at g) raw).
  { rewrite <- ER. apply (last_same c D); try assumption. rewrite <- (read_pmore q). apply N. exact RG. }
  exists (pmore q g), (rest (stream_of g)). split; [|split].
  - split; [exact RG|]. rewrite stream_pmore. rewrite (opened_good _ G) at 1. reflexivity.
  - rewrite read_pmore. unfold post_process in PP. destruct (bytes_eqb (version (mesh_format raw)) v22s) eqn:EV.
    + exfalso. apply bytes_eqb_eq in EV. rewrite <- ER in EV. revert EV.
      eapply last_version; try eassumption. exists m. exact S1.
    + injection PP as <-. exact SM.
  - intros pt' u' [(k & RK) SK] NU. rewrite start_pmore in RK.
    destruct (steps_back _ _ _ _ _ RK) as (r & RR & ->).
    { rewrite SK. split; [reflexivity|]. cbn [opened rest]. rewrite app_length. destruct u'; [congruence|cbn [List.length]; lia]. }
    rewrite stream_pmore in SK. assert (X : stream_of r = opened u').
    { destruct (stream_of r) as [rr re rf]. unfold more, opened in SK. cbn in SK. injection SK as SK -> ->.
      apply app_inv_tail in SK. subst rr. reflexivity. }
    destruct (last_is_last _ _ _ _ _ S1 S2 B _ _ RR) as (j & J); [rewrite X; reflexivity|].
    pose proof (steps_adv _ _ _ _ J) as (A & _). rewrite X in A. exact A.
Qed.
