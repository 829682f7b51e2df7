(** 2.2 $Nodes sections. *)

From Verif Require Import Model.LoadMsh Spec.Told22 Proofs.BytesP Proofs.RtBase Proofs.Mono Proofs.Hoare Proofs.TriP Proofs.Load22P Proofs.LoadedP
  Proofs.WeightP Proofs.File22P Proofs.ToldNumP Proofs.SuffixP Proofs.ToldP Proofs.ToldSecP.

Ltac Zify.zify_post_hook ::= idtac.

Lemma bind_inv : forall A B (m : M A) (f : A -> M B) s b s', bind m f s = Ok (b, s') -> exists a s1, m s = Ok (a, s1) /\ f a s1 = Ok (b, s').
Proof. intros A B m f s b s' E. unfold bind in E. destruct (m s) as [[a s1]| | | |]; try discriminate. eauto. Qed.
Lemma lift_inv : forall A (o : outcome A) s a s', lift o s = Ok (a, s') -> o = Ok a /\ s' = s.
Proof. intros A o s a s' E. unfold lift in E. destruct o; try discriminate. injection E as <- <-. auto. Qed.
Lemma use_inv : forall A (o : option A) s a s', use o s = Ok (a, s') -> o = Some a /\ s' = s.
Proof. intros A o s a s' E. unfold use in E. destruct o; try discriminate. injection E as <- <-. auto. Qed.
Lemma assert_inv : forall c s a s', ndebug c = false -> assert_good c s = Ok (a, s') -> good s = true /\ s' = s.
Proof. intros c s a s' D E. unfold assert_good, massert in E. rewrite D in E. destruct (good s); [|discriminate]. injection E as _ <-. auto. Qed.
Ltac inv1 E := let s := fresh "s" in let E1 := fresh "E" in
  apply bind_inv in E; destruct E as (? & s & E1 & E);
  first [apply lift_inv in E1; destruct E1 as [E1 ->] | apply use_inv in E1; destruct E1 as [E1 ->] | idtac].

Tactic Notation "inv" hyp(E) "as" ident(a) ident(s1) ident(E1) := apply bind_inv in E; destruct E as (a & s1 & E1 & E);
  first [apply lift_inv in E1; destruct E1 as [E1 ->] | apply use_inv in E1; destruct E1 as [E1 ->] | idtac].
Ltac inv_assert D := match goal with H : assert_good _ _ = Ok _ |- _ => apply assert_inv in H; [let G := fresh "H" in destruct H as [G ->]|exact D] end.

(** A size, in any text. *)
Lemma count_word : forall o s v s', op (rd_size o) s = Ok (v, s') -> good s' = true ->
  good s = true /\ exists h, rest s = h ++ rest s' /\ in_words [size_written v] h (rest s').
Proof.
  intros o s v s' E G. destruct (w_size o s v s' E G) as (G0 & t & l & E1 & P1 & K). cbn [app] in K. subst l. eauto.
Qed.
Lemma count_word_opt : forall s v s', op (rd_size_opt None) s = Ok (Some v, s') -> good s' = true ->
  good s = true /\ exists h, rest s = h ++ rest s' /\ in_words [size_written v] h (rest s').
Proof.
  intros s v s' E G. destruct (w_size_opt None s (Some v) s' E G) as (G0 & t & l & E1 & P1 & K). cbn [app opt] in K. subst l. eauto.
Qed.

(** ** Text *)

Definition row_words (r : Z * list dbl) : list (bytes -> bytes -> Prop) := size_written (fst r) :: map real_written (snd r).
Lemma row_text : forall c u, tells in_words [] (v22_node_ascii c u) row_words.
Proof. intros c u. unfold v22_node_ascii. tell. told. Qed.

Lemma rows_good : forall c, ndebug c = false -> forall n s rows s', mapM (v22_node_ascii c) (repeat tt n) s = Ok (rows, s') -> good s = true -> good s' = true.
Proof.
  intros c D. induction n as [|n IH]; intros s rows s' E G; cbn [repeat mapM] in E; [injection E as _ <-; exact G|].
  inv1 E. inv1 E. injection E as _ <-. apply (IH _ _ _ E1). unfold v22_node_ascii in E0.
  inv1 E0. inv1 E0. inv1 E0. inv1 E0. inv1 E0. inv_assert D. injection E0 as _ <-. assumption.
Qed.

Lemma row3 : forall c u s r s', v22_node_ascii c u s = Ok (r, s') -> exists x y z, snd r = [x; y; z].
Proof. intros c u s r s' E. unfold v22_node_ascii in E. inv1 E. inv1 E. inv1 E. inv1 E. inv1 E. injection E as <- _. cbn [snd]. eauto. Qed.
Lemma mapM_each : forall A B (f : A -> M B) (Q : B -> Prop) l, (forall x s r s', f x s = Ok (r, s') -> Q r) ->
  forall s rs s', mapM f l s = Ok (rs, s') -> Forall Q rs.
Proof.
  intros A B f Q l H. induction l as [|x l IH]; intros s rs s' E; cbn [mapM] in E; [injection E as <- _; constructor|].
  inv1 E. inv1 E. injection E as <- _. constructor; eauto.
Qed.

Lemma row_words_node : forall r, (exists x y z, snd r = [x; y; z]) -> row_words r = node22_words (row_node r).
Proof. intros [t d] (x & y & z & E). cbn [snd] in E. subst d. reflexivity. Qed.
Lemma rows_words : forall rows, Forall (fun r : Z * list dbl => exists x y z, snd r = [x; y; z]) rows ->
  flat_map row_words rows = flat_map node22_words (map row_node rows).
Proof. intros rows H. induction H as [|r rows Hr H IH]; [reflexivity|]. cbn [flat_map map]. rewrite (row_words_node r Hr), IH. reflexivity. Qed.

(** ** Binary *)

Lemma raw_int_some : forall s v s', op (rd_raw_int_opt None) s = Ok (Some v, s') ->
  good s = true /\ good s' = true /\ rest s = le 4 v ++ rest s' /\ int_ok v.
Proof.
  intros s v s' E. unfold op, rd_raw_int_opt in E. destruct (rd_raw (repeat x00 4) s) as [[b k] s1] eqn:ER. injection E as EV <-.
  unfold rd_raw, sentry_noskip in ER. destruct (good s) eqn:G.
  2:{ injection ER as <- <- <-. discriminate. }
  rewrite repeat_length in ER. cbv zeta in ER. pose proof (firstn_skipn 4 (rest s)) as FS.
  remember (firstn 4 (rest s)) as g eqn:EG. clear EG. remember (skipn 4 (rest s)) as h eqn:EH. clear EH. destruct (_ <? _)%nat eqn:EL.
  - injection ER as _ <- <-. destruct (_ =? 4)%nat eqn:E4; [|discriminate]. apply Nat.ltb_lt in EL. apply Nat.eqb_eq in E4. lia.
  - injection ER as <- <- <-. apply Nat.ltb_ge in EL. destruct (_ =? 4)%nat eqn:E4; [|discriminate]. apply Nat.eqb_eq in E4. injection EV as <-.
    split; [reflexivity|]. cbn [with_rest IStream.rest]. split; [exact G|]. split; [|apply to_int_range].
    rewrite le4_int by exact E4. symmetry. exact FS.
Qed.

Definition raw8 (l : list dbl) : bytes := List.concat (map (le 8) l).

Lemma raw_zeros_bad : forall n s l s', mapM (fun o => op (rd_raw_double o)) (repeat 0 n) s = Ok (l, s') -> good s = false ->
  good s' = false /\ l = repeat 0 n.
Proof.
  induction n as [|n IH]; intros s l s' E G; cbn [repeat mapM] in E; [injection E as <- <-; auto|].
  inv1 E. inv1 E. injection E as <- <-. unfold op, rd_raw_double, rd_raw_size, rd_raw, sentry_noskip in E0. rewrite G in E0. injection E0 as <- <-.
  destruct (IH _ _ _ E1 (not_good_fail s)) as [X ->]. split; [exact X|]. reflexivity.
Qed.
Lemma raw8_zeros : forall n, raw8 (repeat 0 n) = repeat x00 (8 * n).
Proof.
  induction n as [|n IH]; [reflexivity|]. replace (8 * S n)%nat with (8 + 8 * n)%nat by lia. rewrite repeat_app. cbn [repeat]. unfold raw8 in *. cbn [map List.concat]. rewrite IH. reflexivity.
Qed.

Lemma raw_zeros : forall n s l s', mapM (fun o => op (rd_raw_double o)) (repeat 0 n) s = Ok (l, s') -> good s = true ->
  (good s' = true /\ rest s = raw8 l ++ rest s') \/
  (good s' = false /\ (List.length (rest s) < 8 * n)%nat /\ raw8 l = rest s ++ repeat x00 (8 * n - List.length (rest s))).
Proof.
  induction n as [|n IH]; intros s l s' E G; cbn [repeat mapM] in E; [injection E as <- <-; auto|].
  inv1 E. inv1 E. injection E as <- <-. unfold op, rd_raw_double, rd_raw_size in E0. destruct (rd_raw (le 8 0) s) as [[b k] s3] eqn:ER. injection E0 as <- <-.
  unfold rd_raw, sentry_noskip in ER. rewrite G in ER. cbv zeta in ER. pose proof (le_length 8 0) as L8.
  assert (LZ : forall m, (m < 8)%nat -> skipn m (le 8 0) = repeat x00 (8 - m)) by (intros m Hm; do 8 (destruct m as [|m]; [reflexivity|]); lia).
  remember (le 8 0) as z8 eqn:EZ. clear EZ. rewrite L8 in ER.
  pose proof (firstn_skipn 8 (rest s)) as FS. pose proof (firstn_length 8 (rest s)) as FL. pose proof (skipn_length 8 (rest s)) as SL.
  remember (firstn 8 (rest s)) as g eqn:EG. remember (skipn 8 (rest s)) as h eqn:EH. clear EH.
  change (raw8 (unle b :: x0)) with (le 8 (unle b) ++ raw8 x0). destruct (_ <? _)%nat eqn:EL.
  - apply Nat.ltb_lt in EL. assert (L : (List.length (rest s) < 8)%nat) by lia. rewrite firstn_all2 in EG by lia. subst g. injection ER as <- <- <-.
    destruct (raw_zeros_bad _ _ _ _ E1 eq_refl) as [X ->]. right. split; [exact X|]. split; [lia|]. rewrite raw8_zeros.
    rewrite LZ by exact L. rewrite le_unle_n by (rewrite app_length, repeat_length; lia). rewrite <- app_assoc. f_equal.
    rewrite <- repeat_app. f_equal. lia.
  - apply Nat.ltb_ge in EL. injection ER as <- <- <-. rewrite le_unle_n by lia.
    assert (GS : good (with_rest h s) = true) by exact G.
    destruct (IH _ _ _ E1 GS) as [(X & Y)|(X & Y & W)]; cbn [with_rest IStream.rest] in *.
    + left. split; [exact X|]. rewrite <- app_assoc, <- Y. symmetry. exact FS.
    + right. split; [exact X|]. split; [lia|]. rewrite W, app_assoc, FS. f_equal. f_equal. lia.
Qed.

Lemma array_zeros : forall n s l s', rd_raw_array rd_raw_double (repeat 0 n) s = Ok (l, s') -> good s = true ->
  (good s' = true /\ rest s = raw8 l ++ rest s') \/
  (good s' = false /\ (List.length (rest s) < 8 * n)%nat /\ raw8 l = rest s ++ repeat x00 (8 * n - List.length (rest s))).
Proof.
  intros n s l s' E G. unfold rd_raw_array in E. inv1 E. unfold op, sentry_noskip in E0. rewrite G in E0. injection E0 as _ <-.
  apply raw_zeros; assumption.
Qed.

(** One record: all of it, or its tag. *)
Lemma row_raw : forall c, ndebug c = false -> forall u s r s', v22_node_binary c u s = Ok (r, s') ->
  good s = true /\ int_tag (row_node r) /\ (exists x y z, snd r = [x; y; z]) /\
  ((good s' = true /\ rest s = node_bytes (row_node r) ++ rest s') \/
   (good s' = false /\ exists v, (List.length v < 24)%nat /\ rest s = le 4 (n_tag (row_node r)) ++ v /\
      le 8 (n_x (row_node r)) ++ le 8 (n_y (row_node r)) ++ le 8 (n_z (row_node r)) = v ++ repeat x00 (24 - List.length v))).
Proof.
  intros c D u s r s' E. unfold v22_node_binary in E. inv1 E. inv_assert D. rename H into G0.
  inv E as o sa E0. inv E as t sb EO. subst o. inv E as xyz sc E2. injection E as <- <-. destruct (raw_int_some _ _ _ E0) as (_ & G1 & R1 & I1). split; [exact G0|].
  assert (L : exists x y z, xyz = [x; y; z]).
  { unfold rd_raw_array in E2. inv1 E2. apply mapM_length in E2. destruct xyz as [|a [|b [|d [|e xyz]]]]; try discriminate. eauto. }
  split; [exists t; split; [exact I1|reflexivity]|]. split; [exact L|]. destruct L as (c1 & c2 & c3 & ->).
  change [0; 0; 0] with (repeat 0 3) in E2. cbn [row_node n_tag n_x n_y n_z fst snd nth]. destruct (array_zeros 3 _ _ _ E2 G1) as [(X & Y)|(X & Y & W)].
  - left. split; [exact X|]. unfold node_bytes. cbn [row_node n_tag n_x n_y n_z fst snd nth]. rewrite le4_to_size, R1, Y. unfold raw8. cbn [map List.concat]. rewrite app_nil_r, <- !app_assoc. reflexivity.
  - right. split; [exact X|]. exists (rest sa). split; [exact Y|]. rewrite le4_to_size. split; [exact R1|].
    unfold raw8 in W. cbn [map List.concat] in W. rewrite app_nil_r in W. exact W.
Qed.

Lemma rows_raw : forall c, ndebug c = false -> forall n s rows s', mapM (v22_node_binary c) (repeat tt n) s = Ok (rows, s') -> good s = true ->
  let l := map row_node rows in Forall int_tag l /\
  ((good s' = true /\ rest s = List.concat (map node_bytes l) ++ rest s') \/
   (good s' = false /\ exists l1 x v, l = l1 ++ [x] /\ (List.length v < 24)%nat /\ rest s = List.concat (map node_bytes l1) ++ le 4 (n_tag x) ++ v /\
     le 8 (n_x x) ++ le 8 (n_y x) ++ le 8 (n_z x) = v ++ repeat x00 (24 - List.length v))).
Proof.
  intros c D. cbv zeta. induction n as [|n IH]; intros s rows s' E G; cbn [repeat mapM] in E; [injection E as <- <-; split; [constructor|auto]|].
  inv1 E. inv1 E. injection E as <- <-. destruct (row_raw c D _ _ _ _ E0) as (_ & T & _ & [(G1 & R1)|(G1 & v & V1 & V2 & V3)]); cbn [map].
  - destruct (IH _ _ _ E1 G1) as (T2 & C). split; [constructor; assumption|]. cbn [List.concat]. destruct C as [(G2 & R2)|(G2 & l1 & y & v & A1 & A2 & A3 & A4)].
    + left. split; [exact G2|]. rewrite R1, R2, app_assoc. reflexivity.
    + right. split; [exact G2|]. exists (row_node x :: l1), y, v. cbn [map List.concat app]. rewrite A1, R1, A3, <- app_assoc. auto.
  - destruct n as [|n]; cbn [repeat mapM] in E1.
    + injection E1 as <- <-. cbn [map]. split; [constructor; [exact T|constructor]|]. right. split; [exact G1|]. exists [], (row_node x), v. auto.
    + inv1 E1. destruct (row_raw c D _ _ _ _ E) as (G2 & _). congruence.
Qed.

(** ** The section *)

Lemma nodes22_section : forall c spec s spec' s', ndebug c = false -> version (mesh_format spec) = str "2.2" ->
  load_nodes c spec s = Ok (spec', s') ->
  exists l ascii, mesh_nodes (nodes spec') = mesh_nodes (nodes spec) ++ l /\ elements spec' = elements spec /\ entities spec' = entities spec /\
  ((good s' = true /\ exists t, rest s = t ++ rest s' /\ nodes22 ascii l t (rest s')) \/
   (good s' = false /\ ascii = false /\ nodes22_cut l (rest s))).
Proof.
  intros c spec s spec' s' D V E. unfold load_nodes in E. rewrite V in E. change (bytes_eqb (str "2.2") v41s) with false in E.
  change (bytes_eqb (str "2.2") v22s) with true in E. cbv iota zeta in E. fold (prior_nodes (nodes spec)) in E. inv E as n' se E0. injection E as <- <-.
  destruct (prior_blocks (nodes spec)) as [P1 _]. cbn [set_nodes nodes elements entities].
  assert (MN : forall num rows, Forall (fun r : Z * list dbl => exists a b d, snd r = [a; b; d]) rows ->
    mesh_nodes (v22_add_block (prior_nodes (nodes spec)) num rows (n_blocks (prior_nodes (nodes spec)))) = mesh_nodes (nodes spec) ++ map row_node rows).
  { intros num rows H. unfold mesh_nodes, v22_add_block. cbn [n_blocks]. rewrite P1, flat_map_app. f_equal. cbn [flat_map]. rewrite app_nil_r.
    unfold block_nodes. cbn [nb_tags nb_data]. unfold node_width. cbn [nb_parametric nb_dim]. change (Z.to_nat _) with 3%nat.
    induction H as [|[t d] rows (a & b & e & X) H IH]; [reflexivity|]. cbn [snd] in X. subst d. cbn [map fst snd List.concat app nodes_of skipn nth]. rewrite IH. reflexivity. }
  destruct (file_type (mesh_format spec) =? 0).
  - unfold v22_load_nodes_ascii in E0. inv E0 as x0 q0 E1. inv E0 as x1 q1 E2. inv E0 as x2 q2 E3. inv_assert D. rename H into G.
    inv E0 as x3 q3 E5. inv E0 as x4 q4 E4. injection E0 as <- <-. exists (map row_node x4), true. pose proof (mapM_each _ _ _ _ _ (row3 c) _ _ _ E4) as R3.
    split; [apply MN; exact R3|]. split; [reflexivity|]. split; [reflexivity|]. left. pose proof (rows_good c D _ _ _ _ E4 G) as G'. split; [exact G'|].
    destruct (count_word _ _ _ _ E2 G) as (_ & h & H1 & H2).
    destruct (tells_mapM _ words_glued _ _ (v22_node_ascii c) row_words (repeat tt (Z.to_nat x1)) (row_text c) _ _ _ E4 G') as (_ & t & l & T1 & T2 & T3).
    cbn [app] in T3. subst l. exists (h ++ t). split; [rewrite H1, T1, app_assoc; reflexivity|]. unfold nodes22.
    rewrite <- (rows_words _ R3). apply (in_words_app [size_written (zlen (map row_node x4))]); [|exact T2]. rewrite <- T1.
    replace (zlen (map row_node x4)) with x1; [exact H2|]. apply mapM_length in E4. unfold zlen. rewrite map_length, E4, repeat_length.
    assert (SK : size_ok x1) by (eapply tri_post; [apply (tri_size any_ub 0); unfold size_ok, two64; lia|exact E2]). unfold size_ok in SK. lia.
  - unfold v22_load_nodes_binary in E0. inv E0 as x0 q0 E1. inv E0 as x1 q1 E2. inv E0 as x2 q2 E3. inv_assert D. rename H into G.
    inv E0 as x3 q3 E6. inv E0 as x4 s5 E4. inv E0 as x5 s6 E5. injection E0 as <- <-. exists (map row_node x5), false.
    assert (SK : size_ok x1) by (eapply tri_post; [apply (tri_size any_ub 0); unfold size_ok, two64; lia|exact E2]). unfold size_ok in SK.
    assert (R3 : Forall (fun r : Z * list dbl => exists a b d, snd r = [a; b; d]) x5).
    { eapply mapM_each; [|exact E5]. intros u q r q' X. exact (proj1 (proj2 (proj2 (row_raw c D _ _ _ _ X)))). }
    split; [apply MN; exact R3|]. split; [reflexivity|]. split; [reflexivity|].
    assert (LN : zlen (map row_node x5) = x1) by (apply mapM_length in E5; unfold zlen; rewrite map_length, E5, repeat_length; lia).
    destruct (count_word _ _ _ _ E2 G) as (_ & h & H1 & H2). destruct x4.
    destruct (good s5) eqn:G5.
    + destruct (eat1_is _ _ E4 G5) as (_ & u & U1 & U2). destruct (rows_raw c D _ _ _ _ E5 G5) as (T & [(X & Y)|(X & l1 & y & v & A1 & A2 & A3 & A4)]).
      * left. split; [exact X|]. exists (h ++ u ++ List.concat (map node_bytes (map row_node x5))). split; [rewrite H1, U2, Y, <- !app_assoc; reflexivity|].
        split; [|exact T]. exists h, u. split; [reflexivity|]. rewrite LN, <- Y, <- U2. auto.
      * right. split; [exact X|]. split; [reflexivity|]. right. exists l1, y, v. split; [exact A1|]. split; [exact T|]. split; [exact A2|]. split; [|exact A4].
        exists h, u. rewrite app_nil_r, LN, <- A3, <- U2. auto.
    + destruct (Z.to_nat x1) eqn:EZ; cbn [repeat mapM] in E5.
      * injection E5 as <- <-. right. split; [exact G5|]. split; [reflexivity|]. left. reflexivity.
      * inv E5 as y0 y1 E0. destruct (row_raw c D _ _ _ _ E0) as (G6 & _). congruence.
Qed.
