(** 2.2 $Elements sections. *)

From Verif Require Import Model.LoadMsh Spec.Told22 Proofs.BytesP Proofs.RtBase Proofs.Mono Proofs.Hoare Proofs.TriP Proofs.Load22P Proofs.LoadedP
  Proofs.WeightP Proofs.ElemP Proofs.RtStep Proofs.Text22P Proofs.File22P Proofs.ToldNumP Proofs.SuffixP Proofs.ToldP Proofs.ToldSecP Proofs.Told22NodesP.

Ltac Zify.zify_post_hook ::= idtac.

Lemma resize_same : forall A c sz (d : A) n l l', zlen l = n -> resize c sz d n l = Ok l' -> l' = l.
Proof.
  intros A c sz d n l l' <- E. unfold resize in E. destruct (can_hold c sz (zlen l) l); try discriminate. cbn [obind] in E. injection E as <-.
  unfold zlen. rewrite Nat2Z.id, firstn_all, Nat.sub_diag. cbn [repeat]. apply app_nil_r.
Qed.
Lemma resize_at : forall A c sz (d : A) n l l', resize c sz d n l = Ok l' -> n <= PTRDIFF_MAX / sz.
Proof.
  intros A c sz d n l l' E. unfold resize in E. destruct (can_hold c sz n l) as [[]| | | |] eqn:EC; try discriminate. apply can_hold_inv in EC. tauto.
Qed.
Lemma resize_ok : forall A c sz (d : A) n l l' (P : A -> Prop), 0 <= n -> P d -> Forall P l -> resize c sz d n l = Ok l' -> zlen l' = n /\ Forall P l'.
Proof.
  intros A c sz d n l l' P H0 Pd Pl E.
  pose proof (tri_post _ _ _ (tri_resize any_ub _ c sz d n l P H0 Pd Pl) (opened []) l' (opened [])) as X. unfold lift in X. rewrite E in X. specialize (X eq_refl). tauto.
Qed.
Lemma count_positive : forall z, int_ok z -> to_size z <= PTRDIFF_MAX / 4 -> 0 <= z /\ to_size z = z.
Proof.
  intros z H L. assert (0 <= z); [|split; [assumption|apply to_size_id; unfold int_ok, INT_MIN, INT_MAX, two64 in *; lia]].
  destruct (Z.lt_ge_cases z 0) as [C|C]; [exfalso|exact C]. change (PTRDIFF_MAX / 4) with 2305843009213693951 in L.
  unfold to_size in L. rewrite <- (Z_mod_plus_full z 1 two64) in L. rewrite Z.mod_small in L; unfold int_ok, INT_MIN, two64 in *; lia.
Qed.

Lemma emplace_is : forall c b (l l' : list ElementBlock), emplace_back c sz_ElementBlock b l = Ok l' -> l' = l ++ [b].
Proof. intros c b l l' E. unfold emplace_back in E. destruct (can_hold c sz_ElementBlock (zlen l + 1) l); try discriminate. injection E as <-. reflexivity. Qed.

(** ** Text *)

Definition va_ok (st : va) : Prop := some int_ok (va_num st) /\ some int_ok (va_type st) /\ some int_ok (va_ntags st) /\
  Forall int_ok (va_tags st) /\ Forall int_ok (va_ids st).
Lemma va_after_ok : forall st r, rec_ok r -> zlen (er_tags r) <= INT_MAX -> va_ok (va_after st r).
Proof.
  intros st r [R1 R2 R3 R4] T. destruct (gmsh_nodes_spec _ _ R2) as (_ & _ & E). pose proof (zlen_nonneg _ (er_tags r)).
  unfold va_ok. cbn [va_after va_num va_type va_ntags va_tags va_ids].
  split; [apply some_some; exact R1|]. split; [apply some_some; unfold int_ok, INT_MIN, INT_MAX; lia|].
  split; [apply some_some; unfold int_ok, INT_MIN; lia|]. auto.
Qed.

Definition va_words (st : va) : list (bytes -> bytes -> Prop) :=
  opt int_written (va_num st) ++ opt int_written (va_type st) ++ opt int_written (va_ntags st) ++ map int_written (va_tags st) ++ map int_written (va_ids st).
Lemma element_words : forall c st, tells in_words [] (v22_element_ascii c st) va_words.
Proof.
  intros c st. unfold v22_element_ascii. tell. match goal with |- context [classify ?a ?b ?d] => destruct (classify a b d) as [etag pm] end. tell.
  apply tells_ret; [exact words_glued|]. unfold va_words. cbn [va_num va_type va_ntags va_tags va_ids opt app]. reflexivity.
Qed.

Lemma int_opt_ok : forall o s v s', op (rd_int_opt o) s = Ok (v, s') -> some int_ok o -> some int_ok v.
Proof. intros o s v s' E H. exact (tri_post _ _ _ (tri_int_opt any_ub o H) _ _ _ E). Qed.
Lemma ints_ok : forall l s v s', mapM (fun o => op (rd_int o)) l s = Ok (v, s') -> Forall int_ok l -> zlen v = zlen l /\ Forall int_ok v.
Proof. intros l s v s' E H. refine (tri_post _ _ _ (tri_mapM any_ub _ _ _ int_ok int_ok l H _) _ _ _ E). intros x Hx. apply tri_int. exact Hx. Qed.

Lemma int_ok_0 : int_ok 0.
Proof. unfold int_ok, INT_MIN, INT_MAX. lia. Qed.

Lemma element_is : forall c st s st' s', v22_element_ascii c st s = Ok (st', s') -> va_ok st ->
  exists r, st' = va_after st r /\ rec_ok r /\ zlen (er_tags r) <= INT_MAX.
Proof.
  intros c st s st' s' E (V1 & V2 & V3 & V4 & V5). unfold v22_element_ascii in E.
  inv E as num0 s1 E1. inv E as typ0 s2 E2. inv E as nt0 s3 E3. inv E as nt s4 E4. inv E as tags0 s5 E5. inv E as tags s6 E6.
  inv E as typ s7 E7. inv E as n s8 E8. inv E as ids0 s9 E9. inv E as ids s10 E10. inv E as num s11 E11. inv E as dim s12 E12. subst num0 typ0 nt0.
  pose proof (int_opt_ok _ _ _ _ E1 V1 _ eq_refl) as J1. pose proof (int_opt_ok _ _ _ _ E2 V2 _ eq_refl) as J2. pose proof (int_opt_ok _ _ _ _ E3 V3 _ eq_refl) as J3.
  destruct (count_positive _ J3 (resize_at _ _ _ _ _ _ _ E5)) as [P Q]. rewrite Q in E5.
  destruct (resize_ok _ _ _ _ _ _ _ int_ok P int_ok_0 V4 E5) as [L5 F5]. destruct (ints_ok _ _ _ _ E6 F5) as [L6 F6].
  apply npe_ok in E8. destruct (gmsh_nodes_spec _ _ E8) as (_ & Hr & _). assert (0 <= n) as N0 by lia. destruct (resize_ok _ _ _ _ _ _ _ int_ok N0 int_ok_0 V5 E9) as [L9 F9].
  destruct (ints_ok _ _ _ _ E10 F9) as [L10 F10].
  set (r := {| er_id := num; er_type := typ; er_tags := tags; er_nodes := ids |}).
  assert (R : rec_ok r) by (split; cbn [r er_id er_type er_tags er_nodes]; try assumption; rewrite L10, L9; exact E8).
  assert (EC : classify dim tags (va_pm st) = (rec_entity r, add_rec (va_pm st) r)).
  { pose proof (rec_dim_ok r R) as D. cbn [r er_type] in D. rewrite E12 in D. injection D as ->. exact (classify_rec r (va_pm st)). }
  rewrite EC in E. inv E as bl s13 E13. apply emplace_is in E13. injection E as <- _. exists r. split; [|split; [exact R|]].
  - unfold va_after. cbn [r er_id er_type er_tags er_nodes]. rewrite E13, L6, L5. unfold rec_block. cbn [r er_id er_type er_tags er_nodes].
    pose proof (rec_dim_ok r R) as D. cbn [r er_type] in D. rewrite E12 in D. injection D as ->. reflexivity.
  - cbn [r er_tags]. unfold int_ok in J3. lia.
Qed.

Lemma bad_num : forall A (ext : bytes -> A * bool * bytes) o s, good s = false -> rd_num ext o s = (o, set_fail s).
Proof. intros A ext o s G. unfold rd_num. destruct (sentry_cases s) as [(X & _)|[(X & _)|(_ & ->)]]; [congruence|congruence|reflexivity]. Qed.
Lemma bad_num_opt : forall A (ext : bytes -> A * bool * bytes) o s, good s = false -> rd_num_opt ext o s = (o, set_fail s).
Proof. intros A ext o s G. unfold rd_num_opt. destruct (sentry_cases s) as [(X & _)|[(X & _)|(_ & ->)]]; [congruence|congruence|reflexivity]. Qed.
Lemma bad_int_opt : forall o s v s', op (rd_int_opt o) s = Ok (v, s') -> good s = false -> v = o /\ good s' = false.
Proof. intros o s v s' E G. unfold op, rd_int_opt in E. rewrite (bad_num_opt _ _ _ _ G) in E. injection E as <- <-. split; [reflexivity|apply not_good_fail]. Qed.
Lemma bad_ints : forall l s v s', mapM (fun o => op (rd_int o)) l s = Ok (v, s') -> good s = false -> v = l /\ good s' = false.
Proof.
  induction l as [|x l IH]; intros s v s' E G; cbn [mapM] in E; [injection E as <- <-; auto|].
  inv E as a s1 E1. inv E as b s2 E2. injection E as <- <-. unfold op, rd_int in E1. rewrite (bad_num _ _ _ _ G) in E1. injection E1 as <- <-.
  destruct (IH _ _ _ E2 (not_good_fail _)) as [-> X]. auto.
Qed.

(** After a failed read the last element comes again, or there was none. *)
Lemma element_again : forall c st0 r s st' s', v22_element_ascii c (va_after st0 r) s = Ok (st', s') -> good s = false ->
  rec_ok r -> zlen (er_tags r) <= INT_MAX -> st' = va_after (va_after st0 r) r /\ good s' = false.
Proof.
  intros c st0 r s st' s' E G R T. pose proof (zlen_nonneg _ (er_tags r)) as P.
  destruct (int_num _ _ T) as [_ TS]. unfold v22_element_ascii in E.
  inv E as num0 s1 E1. inv E as typ0 s2 E2. inv E as nt0 s3 E3. inv E as nt s4 E4. inv E as tags0 s5 E5. inv E as tags s6 E6.
  inv E as typ s7 E7. inv E as n s8 E8. inv E as ids0 s9 E9. inv E as ids s10 E10. inv E as num s11 E11. inv E as dim s12 E12. subst num0 typ0 nt0.
  destruct (bad_int_opt _ _ _ _ E1 G) as [X1 G1]. destruct (bad_int_opt _ _ _ _ E2 G1) as [X2 G2]. destruct (bad_int_opt _ _ _ _ E3 G2) as [X3 G3].
  cbn [va_after va_num va_type va_ntags va_tags va_ids] in *. injection X1 as ->. injection X2 as ->. injection X3 as ->.
  rewrite TS in E5. apply resize_same in E5; [|reflexivity]. subst tags0. destruct (bad_ints _ _ _ _ E6 G3) as [-> G6].
  apply npe_ok in E8. assert (zlen (er_nodes r) = n) by (pose proof (ro_type r R) as Y; congruence).
  apply resize_same in E9; [|assumption]. subst ids0. destruct (bad_ints _ _ _ _ E10 G6) as [-> G10].
  rewrite (rec_dim_ok r R) in E12. injection E12 as <-. rewrite classify_rec in E. inv E as bl s13 E13. apply emplace_is in E13. injection E as <- <-.
  split; [|exact G10]. rewrite E13. reflexivity.
Qed.
Lemma element_none : forall c st s st' s', v22_element_ascii c st s = Ok (st', s') -> good s = false -> va_ntags st = None -> False.
Proof.
  intros c st s st' s' E G N. unfold v22_element_ascii in E.
  inv E as num0 s1 E1. inv E as typ0 s2 E2. inv E as nt0 s3 E3. inv E as nt s4 E4. subst nt0.
  destruct (bad_int_opt _ _ _ _ E1 G) as [_ G1]. destruct (bad_int_opt _ _ _ _ E2 G1) as [_ G2]. destruct (bad_int_opt _ _ _ _ E3 G2) as [X3 _]. congruence.
Qed.

Lemma elements_again : forall c n st0 r s st' s', iterM n (v22_element_ascii c) (va_after st0 r) s = Ok (st', s') -> good s = false ->
  rec_ok r -> zlen (er_tags r) <= INT_MAX -> st' = fold_left va_after (repeat r n) (va_after st0 r) /\ good s' = false.
Proof.
  intros c. induction n as [|n IH]; intros st0 r s st' s' E G R T; cbn [iterM] in E; [injection E as <- <-; auto|].
  inv E as st1 s1 E1. destruct (element_again _ _ _ _ _ _ E1 G R T) as [-> G1]. exact (IH _ _ _ _ _ E G1 R T).
Qed.

Lemma elements_are : forall c n st s st' s', iterM n (v22_element_ascii c) st s = Ok (st', s') -> good s = true -> va_ok st ->
  exists recs, List.length recs = n /\ Forall rec_ok recs /\ st' = fold_left va_after recs st /\
    ((good s' = true /\ exists t, rest s = t ++ rest s' /\ in_words (flat_map rec22_words recs) t (rest s')) \/
     (good s' = false /\ exists l1 x k t1 t2, recs = l1 ++ repeat x (S k) /\ rest s = t1 ++ t2 /\ in_words (flat_map rec22_words l1) t1 t2)).
Proof.
  intros c. induction n as [|n IH]; intros st s st' s' E G V; cbn [iterM] in E.
  { injection E as <- <-. exists []. split; [reflexivity|]. split; [constructor|]. split; [reflexivity|]. left. split; [exact G|]. exists []. split; [reflexivity|constructor]. }
  inv E as st1 s1 E1. destruct (element_is _ _ _ _ _ E1 V) as (r & -> & R & T). destruct (good s1) eqn:G1.
  - destruct (element_words c st _ _ _ E1 G1) as (_ & t & l & ER & W & EL). cbn [app] in EL. subst l.
    change (va_words (va_after st r)) with (rec22_words r) in W.
    destruct (IH _ _ _ _ E G1 (va_after_ok _ _ R T)) as (recs & L & F & ES & C). exists (r :: recs). split; [cbn [List.length]; rewrite L; reflexivity|].
    split; [constructor; assumption|]. split; [exact ES|]. cbn [flat_map]. destruct C as [(G2 & t' & ET & W')|(G2 & l1 & x & k & t1 & t2 & A1 & A2 & A3)].
    + left. split; [exact G2|]. exists (t ++ t'). split; [rewrite ER, ET, app_assoc; reflexivity|]. apply in_words_app; [rewrite <- ET; exact W|exact W'].
    + right. split; [exact G2|]. exists (r :: l1), x, k, (t ++ t1), t2. split; [rewrite A1; reflexivity|]. split; [rewrite ER, A2, app_assoc; reflexivity|].
      cbn [flat_map]. apply in_words_app; [rewrite <- A2; exact W|exact A3].
  - destruct (elements_again _ _ _ _ _ _ _ E G1 R T) as [-> G2]. exists (repeat r (S n)). split; [apply repeat_length|].
    split; [apply Forall_forall; intros y Hy; apply repeat_spec in Hy; subst y; exact R|]. split; [reflexivity|].
    right. split; [exact G2|]. exists [], r, n, [], (rest s). repeat split. constructor.
Qed.

(** ** Binary *)

Lemma raw_int_or : forall o s v s', op (rd_raw_int o) s = Ok (v, s') -> good s = true ->
  (good s' = true /\ rest s = le 4 v ++ rest s') \/ (good s' = false /\ (List.length (rest s) < 4)%nat).
Proof.
  intros o s v s' E G. unfold op, rd_raw_int in E. destruct (rd_raw (le 4 o) s) as [[b k] s1] eqn:ER. injection E as <- <-.
  unfold rd_raw, sentry_noskip in ER. rewrite G in ER. cbv zeta in ER. pose proof (le_length 4 o) as L4. remember (le 4 o) as z4 eqn:EZ. clear EZ. rewrite L4 in ER.
  pose proof (firstn_skipn 4 (rest s)) as FS. pose proof (firstn_length 4 (rest s)) as FL.
  remember (firstn 4 (rest s)) as g eqn:EG. clear EG. remember (skipn 4 (rest s)) as h eqn:EH. clear EH. destruct (_ <? _)%nat eqn:EL.
  - right. apply Nat.ltb_lt in EL. injection ER as <- <- <-. split; [reflexivity|lia].
  - left. apply Nat.ltb_ge in EL. injection ER as <- <- <-. rewrite le4_int by lia. split; [exact G|]. symmetry. exact FS.
Qed.
Lemma raw_int_opt_or : forall o s v s', op (rd_raw_int_opt o) s = Ok (Some v, s') -> good s = true ->
  (good s' = true /\ rest s = le 4 v ++ rest s') \/ (good s' = false /\ (List.length (rest s) < 4)%nat).
Proof.
  intros [o|] s v s' E G.
  - apply raw_int_or with (o := o); [|exact G]. unfold op, rd_raw_int_opt in E. unfold op. destruct (rd_raw_int o s). injection E as <- <-. reflexivity.
  - left. destruct (raw_int_some _ _ _ E) as (_ & G1 & R & _). auto.
Qed.
Lemma bad_raw_int : forall o s v s', op (rd_raw_int o) s = Ok (v, s') -> good s = false -> int_ok o -> v = o /\ good s' = false.
Proof.
  intros o s v s' E G I. unfold op, rd_raw_int, rd_raw, sentry_noskip in E. rewrite G in E. pose proof (to_int_le4 o I) as X.
  remember (le 4 o) as z4 eqn:EZ. clear EZ. injection E as <- <-. split; [exact X|apply not_good_fail].
Qed.

Lemma raw_ints_or : forall l s v s', mapM (fun o => op (rd_raw_int o)) l s = Ok (v, s') -> good s = true ->
  (good s' = true /\ rest s = ints v ++ rest s') \/ (good s' = false /\ (List.length (rest s) < 4 * List.length l)%nat).
Proof.
  induction l as [|x l IH]; intros s v s' E G; cbn [mapM] in E; [injection E as <- <-; auto|].
  inv E as a s1 E1. inv E as b s2 E2. injection E as <- <-. cbn [List.length]. destruct (raw_int_or _ _ _ _ E1 G) as [(G1 & R1)|(G1 & R1)].
  - destruct (IH _ _ _ E2 G1) as [(G2 & R2)|(G2 & R2)].
    + left. split; [exact G2|]. rewrite R1, R2, app_assoc. reflexivity.
    + right. split; [exact G2|]. rewrite R1, app_length, le_length. lia.
  - right. split; [|lia]. clear - E2 G1. revert s1 b s2 E2 G1. induction l as [|y l IH]; intros s1 b s2 E G; cbn [mapM] in E; [injection E as _ <-; exact G|].
    inv E as a s3 E1. inv E as d s4 E2. injection E as _ <-. eapply IH; [exact E2|].
    unfold op, rd_raw_int, rd_raw, sentry_noskip in E1. rewrite G in E1. injection E1 as _ <-. apply not_good_fail.
Qed.
Lemma bad_raw_ints : forall l s v s', mapM (fun o => op (rd_raw_int o)) l s = Ok (v, s') -> good s = false -> Forall int_ok l -> v = l /\ good s' = false.
Proof.
  induction l as [|x l IH]; intros s v s' E G F; cbn [mapM] in E; [injection E as <- <-; auto|].
  inv E as a s1 E1. inv E as b s2 E2. injection E as <- <-. inversion F as [|? ? F1 F2]; subst. destruct (bad_raw_int _ _ _ _ E1 G F1) as [-> G1].
  destruct (IH _ _ _ E2 G1 F2) as [-> G2]. auto.
Qed.
Lemma raw_array_or : forall l s v s', rd_raw_array rd_raw_int l s = Ok (v, s') -> good s = true ->
  (good s' = true /\ rest s = ints v ++ rest s') \/ (good s' = false /\ (List.length (rest s) < 4 * List.length l)%nat).
Proof.
  intros l s v s' E G. unfold rd_raw_array in E. inv E as u s1 E1. unfold op, sentry_noskip in E1. rewrite G in E1. injection E1 as _ <-. eapply raw_ints_or; eassumption.
Qed.
Lemma bad_raw_array : forall l s v s', rd_raw_array rd_raw_int l s = Ok (v, s') -> good s = false -> Forall int_ok l -> v = l /\ good s' = false.
Proof.
  intros l s v s' E G F. unfold rd_raw_array in E. inv E as u s1 E1. unfold op, sentry_noskip in E1. rewrite G in E1. injection E1 as _ <-.
  eapply bad_raw_ints; [exact E|apply not_good_fail|exact F].
Qed.
Lemma raw_array_ok : forall l s v s', rd_raw_array rd_raw_int l s = Ok (v, s') -> Forall int_ok l -> zlen v = zlen l /\ Forall int_ok v.
Proof. intros l s v s' E F. refine (tri_post _ _ _ (tri_raw_array any_ub rd_raw_int int_ok int_ok l F _) _ _ _ E). intros o _. apply tri_raw_int. Qed.
Lemma ints_length : forall l, List.length (ints l) = (4 * List.length l)%nat.
Proof. unfold ints. induction l as [|x l IH]; [reflexivity|]. cbn [map List.concat List.length]. rewrite app_length, le_length, IH. lia. Qed.

(** The vectors the inner loop reads into. *)
Record vb_ready (typ nt : Z) (st : vb) : Prop := {
  vr_tags : Forall int_ok (vb_tags st);
  vr_ids : Forall int_ok (vb_ids st);
  vr_ntags : zlen (vb_tags st) = nt;
  vr_nodes : gmsh_nodes typ = Some (zlen (vb_ids st)) }.
Lemma vb_after_ready : forall typ nt st r, rec_ok r -> er_type r = typ -> zlen (er_tags r) = nt -> vb_ready typ nt (vb_after st r).
Proof. intros typ nt st r [R1 R2 R3 R4] <- <-. split; cbn [vb_after vb_tags vb_ids]; try assumption. reflexivity. Qed.

Lemma element_bin : forall c typ nt N id0 st s id1 st' s', v22_element_binary c typ nt N (id0, st) s = Ok ((id1, st'), s') ->
  some int_ok id0 -> vb_ready typ nt st ->
  exists r, rec_ok r /\ er_type r = typ /\ zlen (er_tags r) = nt /\ id1 = Some (er_id r) /\ st' = vb_after st r /\ vb_done st + 1 <= N /\
    (good s = true -> (good s' = true /\ rest s = rec_bytes r ++ rest s') \/ (good s' = false /\ (List.length (rest s) < List.length (rec_bytes r))%nat)) /\
    (good s = false -> good s' = false /\ er_tags r = vb_tags st /\ er_nodes r = vb_ids st /\ id0 = Some (er_id r)).
Proof.
  intros c typ nt N id0 st s id1 st' s' E I0 [V1 V2 V3 V4]. unfold v22_element_binary in E.
  inv E as i1 s1 E1. inv E as u s2 E2. assert (X2 : s2 = s1) by (destruct (INT_MAX <? 4 * nt); [discriminate|injection E2 as _ <-; reflexivity]). subst s2. clear E2.
  inv E as tags s3 E3. inv E as ids s4 E4. inv E as id s5 E5. subst i1. inv E as dim s6 E6.
  destruct (raw_array_ok _ _ _ _ E3 V1) as [L3 F3]. destruct (raw_array_ok _ _ _ _ E4 V2) as [L4 F4].
  pose proof (tri_post _ _ _ (tri_raw_int_opt any_ub id0 I0) _ _ _ E1 id eq_refl) as J.
  set (r := {| er_id := id; er_type := typ; er_tags := tags; er_nodes := ids |}).
  assert (R : rec_ok r) by (split; cbn [r er_id er_type er_tags er_nodes]; try assumption; rewrite L4; exact V4).
  assert (D : dim = rec_dim r) by (pose proof (rec_dim_ok r R) as D; cbn [r er_type] in D; congruence). subst dim.
  change tags with (er_tags r) in E at 1. rewrite classify_rec in E. inv E as bl s7 E7. apply emplace_is in E7. cbv zeta in E.
  destruct (N <? vb_done st + 1) eqn:EN; [discriminate|]. apply Z.ltb_ge in EN.
  assert (Y : id1 = Some id /\ st' = vb_after st r /\ s' = s4) by (rewrite E7 in E; injection E as <- <- <-; split; [reflexivity|split; reflexivity]).
  clear E. destruct Y as (-> & -> & ->). exists r. split; [exact R|]. split; [reflexivity|]. split; [cbn [r er_tags]; congruence|].
  split; [reflexivity|]. split; [reflexivity|]. split; [exact EN|]. unfold rec_bytes. cbn [r er_id er_tags er_nodes]. rewrite !app_length, le_length, !ints_length.
  assert (N3 : List.length tags = List.length (vb_tags st)) by (unfold zlen in L3; lia). assert (N4 : List.length ids = List.length (vb_ids st)) by (unfold zlen in L4; lia).
  split; intro G.
  - destruct (raw_int_opt_or _ _ _ _ E1 G) as [(G1 & R1)|(G1 & R1)].
    + destruct (raw_array_or _ _ _ _ E3 G1) as [(G3 & R3)|(G3 & R3)].
      * destruct (raw_array_or _ _ _ _ E4 G3) as [(G4 & R4)|(G4 & R4)].
        -- left. split; [exact G4|]. rewrite R1, R3, R4, <- !app_assoc. reflexivity.
        -- right. split; [exact G4|]. rewrite R1, R3, !app_length, le_length, ints_length. lia.
      * destruct (bad_raw_array _ _ _ _ E4 G3 V2) as [_ G4]. right. split; [exact G4|]. rewrite R1, app_length, le_length. lia.
    + destruct (bad_raw_array _ _ _ _ E3 G1 V1) as [_ G3]. destruct (bad_raw_array _ _ _ _ E4 G3 V2) as [_ G4]. right. split; [exact G4|]. lia.
  - assert (Z1 : good s1 = false /\ id0 = Some id).
    { destruct id0 as [o|]; [|destruct (raw_int_some _ _ _ E1) as (G0 & _); congruence].
      assert (EO : op (rd_raw_int o) s = Ok (id, s1)) by (unfold op, rd_raw_int_opt in E1; unfold op; destruct (rd_raw_int o s); injection E1 as <- <-; reflexivity).
      destruct (bad_raw_int _ _ _ _ EO G (I0 o eq_refl)) as [-> G1]. auto. }
    destruct Z1 as [G1 ->]. destruct (bad_raw_array _ _ _ _ E3 G1 V1) as [-> G3]. destruct (bad_raw_array _ _ _ _ E4 G3 V2) as [-> G4]. auto.
Qed.

Lemma block_again : forall c typ nt N n st0 r s id1 st' s', iterM n (v22_element_binary c typ nt N) (Some (er_id r), vb_after st0 r) s = Ok ((id1, st'), s') ->
  good s = false -> rec_ok r -> er_type r = typ -> zlen (er_tags r) = nt -> vb_done st0 + 1 <= N ->
  st' = fold_left vb_after (repeat r n) (vb_after st0 r) /\ good s' = false /\ vb_done st0 + 1 + Z.of_nat n <= N.
Proof.
  intros c typ nt N. induction n as [|n IH]; intros st0 r s id1 st' s' E G R T K D; cbn [iterM] in E.
  { injection E as _ <- <-. split; [reflexivity|]. split; [exact G|]. change (Z.of_nat 0) with 0. lia. }
  inv E as p s1 E1. destruct p as [id2 st2].
  destruct (element_bin _ _ _ _ _ _ _ _ _ _ E1 (some_some _ _ (ro_id r R)) (vb_after_ready _ _ _ _ R T K)) as (r2 & R2 & T2 & _ & -> & -> & D2 & _ & B).
  destruct (B G) as (G1 & B1 & B2 & B3). cbn [vb_after vb_tags vb_ids vb_done] in B1, B2, D2. injection B3 as B3.
  assert (r2 = r) by (destruct r as [a1 a2 a3 a4], r2 as [b1 b2 b3 b4]; cbn [er_id er_type er_tags er_nodes] in *; congruence). subst r2.
  destruct (IH _ _ _ _ _ _ E G1 R T K ltac:(cbn [vb_after vb_done]; lia)) as (X & G2 & D3). split; [exact X|]. split; [exact G2|]. cbn [vb_after vb_done] in D3. lia.
Qed.

Lemma block_is : forall c typ nt N n id0 st s id1 st' s', iterM n (v22_element_binary c typ nt N) (id0, st) s = Ok ((id1, st'), s') ->
  good s = true -> some int_ok id0 -> vb_ready typ nt st -> vb_done st <= N ->
  exists recs, List.length recs = n /\ Forall rec_ok recs /\ Forall (fun r => er_type r = typ /\ zlen (er_tags r) = nt) recs /\
    st' = fold_left vb_after recs st /\ vb_done st + zlen recs <= N /\ vb_ready typ nt st' /\
    ((good s' = true /\ rest s = List.concat (map rec_bytes recs) ++ rest s') \/
     (good s' = false /\ exists l1 x k v, recs = l1 ++ repeat x (S k) /\ (List.length v < List.length (rec_bytes x))%nat /\
        rest s = List.concat (map rec_bytes l1) ++ v)).
Proof.
  intros c typ nt N. induction n as [|n IH]; intros id0 st s id1 st' s' E G I0 V D; cbn [iterM] in E.
  { injection E as _ <- <-. exists []. split; [reflexivity|]. split; [constructor|]. split; [constructor|]. split; [reflexivity|]. rewrite zlen_nil.
    split; [lia|]. split; [exact V|]. left. auto. }
  inv E as p s1 E1. destruct p as [id2 st2].
  destruct (element_bin _ _ _ _ _ _ _ _ _ _ E1 I0 V) as (r & R & T & K & -> & -> & D2 & B & _). specialize (B G). destruct B as [(G1 & R1)|(G1 & R1)].
  - destruct (IH _ _ _ _ _ _ E G1 (some_some _ _ (ro_id r R)) (vb_after_ready _ _ _ _ R T K) ltac:(cbn [vb_after vb_done]; lia))
      as (recs & L & F1 & F2 & -> & D3 & V3 & C). cbn [vb_after vb_done] in D3. exists (r :: recs). split; [cbn [List.length]; congruence|].
    split; [constructor; assumption|]. split; [constructor; auto|]. split; [reflexivity|]. rewrite zlen_cons. split; [lia|]. split; [exact V3|].
    cbn [map List.concat]. destruct C as [(G2 & R2)|(G2 & l1 & x & k & v & A1 & A2 & A3)].
    + left. split; [exact G2|]. rewrite R1, R2, app_assoc. reflexivity.
    + right. split; [exact G2|]. exists (r :: l1), x, k, v. split; [rewrite A1; reflexivity|]. split; [exact A2|]. rewrite R1, A3. cbn [map List.concat]. apply app_assoc.
  - destruct (block_again _ _ _ _ _ _ _ _ _ _ _ E G1 R T K D2) as (-> & G2 & D3). exists (repeat r (S n)). split; [apply repeat_length|].
    assert (FA : forall P : el_rec -> Prop, P r -> Forall P (repeat r (S n))) by (intros P HP; apply Forall_forall; intros y Hy; apply repeat_spec in Hy; subst y; exact HP).
    split; [apply FA; exact R|]. split; [apply FA; auto|]. split; [reflexivity|]. split; [unfold zlen; rewrite repeat_length; lia|].
    split. { assert (X : forall m q, vb_ready typ nt q -> vb_ready typ nt (fold_left vb_after (repeat r m) q)).
             { induction m as [|m IHm]; intros q Hq; [exact Hq|]. cbn [repeat fold_left]. apply IHm. apply vb_after_ready; assumption. }
             apply X. apply vb_after_ready; assumption. }
    right. split; [exact G2|]. exists [], r, n, (rest s). auto.
Qed.

Definition block_cut (b : block22) (t : bytes) : Prop :=
  exists l1 x k v, bl_recs b = l1 ++ repeat x (S k) /\ (List.length v < List.length (rec_bytes x))%nat /\
    t = le 4 (bl_type b) ++ le 4 (zlen (bl_recs b)) ++ le 4 (bl_ntags b) ++ List.concat (map rec_bytes l1) ++ v.

Lemma same_vb_refl : forall a, same_vb a a.
Proof. intro a. repeat split. Qed.
Lemma same_vb_trans : forall a b d, same_vb a b -> same_vb b d -> same_vb a d.
Proof. intros a b d (A1 & A2 & A3 & A4 & A5) (B1 & B2 & B3 & B4 & B5). repeat split; congruence. Qed.

Lemma blocks_none : forall fuel c N st s st' s', v22_elements_loop fuel c N st s = Ok (st', s') -> good s = false -> st' = st /\ s' = s /\ vb_done st = N.
Proof.
  intros [|fuel] c N st s st' s' E G; cbn [v22_elements_loop] in E; [discriminate|]. destruct (vb_done st =? N) eqn:EN.
  - injection E as <- <-. apply Z.eqb_eq in EN. auto.
  - exfalso. inv E as typ0 s1 E1. inv E as nb0 s2 E2. inv E as nt0 s3 E3. inv E as nt s4 E4. subst nt0. destruct (raw_int_some _ _ _ E3) as (G2 & _).
    assert (B : forall q o q', op (rd_raw_int_opt None) q = Ok (o, q') -> good q = false -> good q' = false).
    { intros q o q' X Gq. unfold op, rd_raw_int_opt, rd_raw, sentry_noskip in X. rewrite Gq in X. injection X as _ <-. apply not_good_fail. }
    rewrite (B _ _ _ E2 (B _ _ _ E1 G)) in G2. discriminate.
Qed.

Lemma blocks_are : forall c N, N <= PTRDIFF_MAX / sz_ElementBlock -> forall fuel st s st' s', v22_elements_loop fuel c N st s = Ok (st', s') ->
  good s = true -> Forall int_ok (vb_tags st) -> Forall int_ok (vb_ids st) -> 0 <= vb_done st <= N ->
  exists bs, Forall block22_of bs /\ Forall rec_ok (flat_map bl_recs bs) /\ same_vb st' (fold_left vb_after (flat_map bl_recs bs) st) /\ vb_done st' = N /\
    ((good s' = true /\ rest s = List.concat (map block22_bytes bs) ++ rest s') \/
     (good s' = false /\ exists bs1 b t, bs = bs1 ++ [b] /\ block_cut b t /\ rest s = List.concat (map block22_bytes bs1) ++ t)).
Proof.
  intros c N HN. induction fuel as [|fuel IH]; intros st s st' s' E G V1 V2 D; cbn [v22_elements_loop] in E; [discriminate|].
  destruct (vb_done st =? N) eqn:EN.
  { injection E as <- <-. apply Z.eqb_eq in EN. exists []. split; [constructor|]. split; [constructor|]. split; [apply same_vb_refl|]. split; [exact EN|]. left. auto. }
  inv E as typ0 s1 E1. inv E as nb0 s2 E2. inv E as nt0 s3 E3. inv E as nt s4 E4. inv E as tags s5 E5. inv E as typ s6 E6. inv E as n s7 E7.
  inv E as ids s8 E8. inv E as nb s9 E9. subst typ0 nb0 nt0. cbv zeta in E. inv E as p s10 E10. destruct p as [id1 st2]. cbn [snd] in E.
  destruct (raw_int_some _ _ _ E1) as (_ & G1 & R1 & I1). destruct (raw_int_some _ _ _ E2) as (_ & G2 & R2 & I2). destruct (raw_int_some _ _ _ E3) as (_ & G3 & R3 & I3).
  destruct (count_positive _ I3 (resize_at _ _ _ _ _ _ _ E5)) as [P Q]. rewrite Q in E5. destruct (resize_ok _ _ _ _ _ _ _ int_ok P int_ok_0 V1 E5) as [L5 F5].
  apply npe_ok in E7. destruct (gmsh_nodes_spec _ _ E7) as (_ & Hr & _). assert (N0 : 0 <= n) by lia.
  destruct (resize_ok _ _ _ _ _ _ _ int_ok N0 int_ok_0 V2 E8) as [L8 F8].
  set (st1 := {| vb_tags := tags; vb_ids := ids; vb_min := vb_min st; vb_max := vb_max st; vb_done := vb_done st; vb_blocks := vb_blocks st; vb_pm := vb_pm st |}) in *.
  assert (V : vb_ready typ nt st1) by (split; cbn [st1 vb_tags vb_ids]; try assumption; rewrite L8; exact E7).
  destruct (block_is _ _ _ _ _ _ _ _ _ _ _ E10 G3 (some_none _ int_ok) V (proj2 D)) as (recs & L & F1 & F2 & ES & D2 & V2' & C).
  cbn [st1 vb_done] in D2. pose proof (to_size_range nb) as TR.
  assert (ZL : zlen recs = nb /\ 0 <= nb).
  { unfold size_ok in TR. assert (X : zlen recs = to_size nb) by (unfold zlen in *; lia).
    destruct (count_positive nb I2) as [Y1 Y2]; [|lia]. change (PTRDIFF_MAX / sz_ElementBlock) with 192153584101141162 in HN. change (PTRDIFF_MAX / 4) with 2305843009213693951.
    pose proof (zlen_nonneg _ recs). lia. }
  destruct ZL as [ZL NB]. set (b := {| bl_type := typ; bl_ntags := nt; bl_recs := recs |}).
  assert (BO : block22_of b) by (split; cbn [b bl_type bl_ntags bl_recs]; [exact F2|unfold int_ok in I2; lia|unfold int_ok in I3; lia]).
  assert (SF : forall l, same_vb (fold_left vb_after l st2) (fold_left vb_after (recs ++ l) st)).
  { intro l. rewrite fold_left_app, ES. apply same_after. apply same_after. repeat split. }
  assert (DD : vb_done st2 = vb_done st + zlen recs) by (rewrite ES, vb_done_after; reflexivity).
  assert (RB : forall v, rest s3 = v -> rest s = le 4 (bl_type b) ++ le 4 (zlen (bl_recs b)) ++ le 4 (bl_ntags b) ++ v).
  { intros v X. cbn [b bl_type bl_ntags bl_recs]. rewrite ZL, R1, R2, R3, X. reflexivity. }
  destruct C as [(G4 & R4)|(G4 & l1 & x & k & v & A1 & A2 & A3)].
  - destruct (IH _ _ _ _ E G4 (vr_tags _ _ _ V2') (vr_ids _ _ _ V2')) as (bs & B1 & B2 & B3 & B4 & C); [pose proof (zlen_nonneg _ recs); lia|].
    exists (b :: bs). split; [constructor; assumption|]. cbn [flat_map b bl_recs map List.concat]. split; [apply Forall_app; auto|].
    split; [eapply same_vb_trans; [exact B3|apply SF]|]. split; [exact B4|]. destruct C as [(G5 & R5)|(G5 & bs1 & b' & t & C1 & C2 & C3)].
    + left. split; [exact G5|]. unfold block22_bytes at 1. rewrite (RB _ R4), R5, <- !app_assoc. reflexivity.
    + right. split; [exact G5|]. exists (b :: bs1), b', t. split; [rewrite C1; reflexivity|]. split; [exact C2|].
      cbn [map List.concat]. unfold block22_bytes at 1. rewrite (RB _ R4), C3, <- !app_assoc. reflexivity.
  - destruct (blocks_none _ _ _ _ _ _ _ E G4) as (-> & -> & EN2). exists [b]. split; [constructor; [exact BO|constructor]|]. cbn [flat_map b bl_recs]. rewrite app_nil_r.
    split; [exact F1|]. split; [pose proof (SF []) as X; rewrite app_nil_r in X; exact X|]. split; [exact EN2|]. right. split; [exact G4|].
    exists [], b, (rest s). split; [reflexivity|]. split; [|reflexivity]. exists l1, x, k, v. split; [exact A1|]. split; [exact A2|]. exact (RB _ A3).
Qed.

(** ** The section *)

Lemma read_size : forall o s v s', op (rd_size o) s = Ok (v, s') -> good s' = true -> size_ok v.
Proof.
  intros o s v s' E G. assert (E' : op (rd_size 0) s = Ok (v, s')).
  { unfold op, rd_size, rd_num in *. destruct (sentry_cases s) as [(_ & _ & ES)|[(_ & _ & ES)|(_ & ES)]]; rewrite ES in *; [exact E| |].
    - injection E as _ <-. discriminate.
    - injection E as _ <-. rewrite not_good_fail in G. discriminate. }
  eapply tri_post; [apply (tri_size any_ub 0); unfold size_ok, two64; lia|exact E'].
Qed.

Lemma elements22_section : forall c spec s spec' s', version (mesh_format spec) = str "2.2" -> load_elements c spec s = Ok (spec', s') ->
  exists l ascii, mesh_elements (elements spec') = mesh_elements (elements spec) ++ map rec_element l /\ nodes spec' = nodes spec /\
    entities_added l (entities spec) (entities spec') /\ Forall rec_ok l /\
  ((good s' = true /\ exists t, rest s = t ++ rest s' /\ elements22 ascii l t (rest s')) \/
   (good s' = false /\ elements22_cut ascii l (rest s))).
Proof.
  intros c spec s spec' s' V E. unfold load_elements in E. rewrite V in E. change (bytes_eqb (str "2.2") v41s) with false in E.
  change (bytes_eqb (str "2.2") v22s) with true in E. cbv iota zeta in E. fold (prior_elements (elements spec)) in E. inv E as p se E0. injection E as <- <-.
  destruct (prior_eblocks (elements spec)) as [P1 _]. cbn [set_entities set_elements nodes elements entities].
  assert (ME : forall l e en, e_blocks e = e_blocks (prior_elements (elements spec)) ++ map rec_block l -> Forall rec_ok l -> en = create_all (fold_left add_rec l pmaps_empty) (entities spec) ->
    mesh_elements e = mesh_elements (elements spec) ++ map rec_element l /\ entities_added l (entities spec) en).
  { intros l e en EB F ->. split; [|apply create_all_added; exact F]. unfold mesh_elements. rewrite EB, P1, flat_map_app. f_equal. apply rec_blocks_22. exact F. }
  destruct (file_type (mesh_format spec) =? 0).
  - unfold v22_load_elements_ascii in E0. inv E0 as ne0 q0 E1. inv E0 as ne q1 E2. subst ne0. inv E0 as st q2 E3. injection E0 as <- <-. cbn [fst snd].
    set (st0 := {| va_num := None; va_type := None; va_ntags := None; va_tags := []; va_ids := []; va_min := e_min (prior_elements (elements spec));
                   va_max := e_max (prior_elements (elements spec)); va_blocks := e_blocks (prior_elements (elements spec)); va_pm := pmaps_empty |}) in *.
    assert (AF : forall l, st = fold_left va_after l st0 -> Forall rec_ok l -> va_blocks st = e_blocks (prior_elements (elements spec)) ++ map rec_block l /\
      va_pm st = fold_left add_rec l pmaps_empty).
    { intros l X F. rewrite X. destruct (va_after_inv l st0 _ _ _ F eq_refl eq_refl eq_refl eq_refl) as (H1 & H2 & _). auto. }
    assert (SK : size_ok ne) by exact (tri_post _ _ _ (tri_size_opt any_ub None (some_none _ _)) _ _ _ E1 ne eq_refl).
    destruct (good q0) eqn:G.
    + destruct (elements_are _ _ _ _ _ _ E3 G) as (l & L & F & X & C).
      { split; [apply some_none|]. split; [apply some_none|]. split; [apply some_none|]. split; constructor. }
      destruct (AF l X F) as [B1 B2]. exists l, true.
      match goal with |- context [mesh_elements ?e = _] => destruct (ME l e _ B1 F eq_refl) as [M1 M2] end.
      split; [exact M1|]. split; [reflexivity|]. split; [rewrite B2; exact M2|]. split; [exact F|].
      destruct (count_word_opt _ _ _ E1 G) as (_ & h & H1 & H2). assert (ZN : zlen l = ne) by (unfold zlen, size_ok in *; lia).
      destruct C as [(G2 & t & T1 & T2)|(G2 & l1 & x & k & t1 & t2 & A1 & A2 & A3)].
      * left. split; [exact G2|]. exists (h ++ t). split; [rewrite H1, T1, app_assoc; reflexivity|]. unfold elements22.
        apply (in_words_app [size_written (zlen l)]); [rewrite ZN, <- T1; exact H2|exact T2].
      * right. split; [exact G2|]. right. exists l1, x, k, (h ++ t1), t2. split; [exact A1|]. split; [rewrite H1, A2, app_assoc; reflexivity|].
        apply (in_words_app [size_written (zlen l)]); [rewrite ZN, <- A2; exact H2|exact A3].
    + destruct (Z.to_nat ne) as [|m]; cbn [iterM] in E3.
      * injection E3 as <- <-. exists [], true. match goal with |- context [mesh_elements ?e = _] => destruct (ME [] e _ (eq_sym (app_nil_r _)) ltac:(constructor) eq_refl) as [M1 M2] end.
        split; [exact M1|]. split; [reflexivity|]. split; [exact M2|]. split; [constructor|]. right. split; [exact G|]. left. reflexivity.
      * exfalso. inv E3 as st1 q3 E4. eapply element_none; [exact E4|exact G|reflexivity].
  - unfold v22_load_elements_binary in E0. inv E0 as ne q0 E1. inv E0 as u q1 E2. inv E0 as w q2 E3. destruct w. inv E0 as st q3 E4. injection E0 as <- <-. cbn [fst snd].
    match type of E4 with v22_elements_loop _ _ _ ?q _ = _ => set (st0 := q) in * end. destruct u.
    assert (AF : forall l, same_vb st (fold_left vb_after l st0) -> vb_blocks st = e_blocks (prior_elements (elements spec)) ++ map rec_block l /\
      vb_pm st = fold_left add_rec l pmaps_empty).
    { intros l (_ & _ & _ & X4 & X5). rewrite X4, X5. destruct (vb_after_inv l st0 _ eq_refl eq_refl eq_refl eq_refl) as (H1 & H2 & _). auto. }
    destruct (good q2) eqn:G2.
    + destruct (eat1_is _ _ E3 G2) as (G & u & U1 & U2). pose proof (read_size _ _ _ _ E1 G) as SK. unfold size_ok in SK.
      apply can_hold_inv in E2. destruct E2 as [HN _].
      destruct (blocks_are _ _ HN _ _ _ _ _ E4 G2 ltac:(constructor) ltac:(constructor)) as (bs & B1 & B2 & B3 & B4 & C); [cbn [st0 vb_done]; lia|].
      destruct (AF _ B3) as [B5 B6]. exists (flat_map bl_recs bs), false.
      match goal with |- context [mesh_elements ?e = _] => destruct (ME (flat_map bl_recs bs) e _ B5 B2 eq_refl) as [M1 M2] end.
      split; [exact M1|]. split; [reflexivity|]. split; [rewrite B6; exact M2|]. split; [exact B2|].
      assert (ZN : zlen (flat_map bl_recs bs) = ne).
      { destruct B3 as (_ & _ & X & _). rewrite vb_done_after in X. cbn [st0 vb_done] in X. lia. }
      destruct (count_word _ _ _ _ E1 G) as (_ & h & H1 & H2). destruct C as [(G3 & R3)|(G3 & bs1 & b & t & C1 & C2 & C3)].
      * left. split; [exact G3|]. exists (h ++ u ++ List.concat (map block22_bytes bs)). split; [rewrite H1, U2, R3, <- !app_assoc; reflexivity|].
        exists bs. split; [reflexivity|]. split; [exact B1|]. exists h, u. split; [reflexivity|]. rewrite ZN, <- R3, <- U2. auto.
      * right. split; [exact G3|]. right. destruct C2 as (l1 & x & k & v & A1 & A2 & A3). subst bs. apply Forall_app in B1. destruct B1 as [B1 BB]. inversion BB as [|? ? BO _]; subst.
        exists bs1, (bl_type b), (bl_ntags b), l1, x, k, v. rewrite flat_map_app. cbn [flat_map]. rewrite app_nil_r, A1.
        split; [reflexivity|]. split; [exact B1|]. split; [destruct b as [b1 b2 b3]; cbn [bl_type bl_ntags bl_recs] in *; subst; exact BO|]. split; [exact A2|].
        exists h, u. rewrite flat_map_app in *. cbn [flat_map] in *. rewrite app_nil_r, A1 in *. split; [rewrite H1, U2, C3; reflexivity|].
        rewrite ZN, <- C3, <- U2. auto.
    + destruct (blocks_none _ _ _ _ _ _ _ E4 G2) as (-> & -> & EN). exists [], false.
      match goal with |- context [mesh_elements ?e = _] => destruct (ME [] e _ (eq_sym (app_nil_r _)) ltac:(constructor) eq_refl) as [M1 M2] end.
      split; [exact M1|]. split; [reflexivity|]. split; [exact M2|]. split; [constructor|]. right. split; [exact G2|]. left. reflexivity.
Qed.
