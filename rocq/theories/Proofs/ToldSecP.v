(** Each section, text and binary. *)

From Verif Require Import Model.LoadMsh Spec.Told Proofs.BytesP Proofs.RtBase Proofs.Mono Proofs.Hoare Proofs.TriP Proofs.Load22P Proofs.LoadedP
  Proofs.WeightP Proofs.ToldNumP Proofs.SuffixP Proofs.ToldP.

Ltac Zify.zify_post_hook ::= idtac.

Ltac glue := first [exact words_glued | exact text_glued | exact raw_glued].
Ltac basic := match goal with |- tells _ _ (op (rd_raw_double _)) _ => apply r_double | _ => first [apply w_int | apply w_size | apply w_double | apply w_quoted | apply w_int_opt | apply w_size_opt
  | apply f_int | apply f_size | apply f_double | apply f_size_opt
  | apply r_int | apply r_size | apply r_int_opt | apply r_size_opt] end.
Ltac tell1 :=
  match goal with
  | |- tells _ _ (bind (op _) _) _ => eapply tells_bind; [glue|basic|intro]
  | |- tells _ _ (bind (lift _) _) _ => apply tells_lift; intros
  | |- tells _ _ (bind (use _) _) _ => apply tells_use; intros ? ->
  | |- tells _ _ (bind (massert _ _) _) _ => apply tells_massert
  | |- tells _ _ (bind (assert_good _) _) _ => apply tells_assert
  | |- tells _ _ (bind (mapM (fun _ => op _) _) _) _ => eapply tells_bind; [glue|apply tells_map; [glue|intro; basic]|intro]
  | |- tells _ _ (bind (fill _ (fun _ => op _) _) _) _ => eapply tells_bind; [glue|apply tells_fill; [glue|intro; basic]|intro]
  | |- tells _ _ (bind (rd_raw_array _ _) _) _ => eapply tells_bind; [glue|apply tells_array; [glue|intro; basic]|intro]
  | |- tells _ _ (throw _) _ => apply tells_throw
  | |- tells _ _ (undef _) _ => apply tells_undef
  end.
Ltac tell := repeat tell1.
Ltac told := apply tells_ret; [glue|]; prj; cbn [opt app]; repeat (rewrite <- app_assoc; cbn [app]); try reflexivity.

(** ** Nodes *)

Lemma node_block_text : forall c b, tells text_numbers [] (v41_node_block_ascii c b) node_block_numbers.
Proof. intros. unfold v41_node_block_ascii. tell. unfold node_block_numbers. told. Qed.

Lemma node_block_raw : forall c b, tells raw_numbers [] (v41_node_block_binary c b) node_block_numbers.
Proof.
  intros. unfold v41_node_block_binary. do 3 tell1.
  eapply (tells_bind_fact _ raw_glued _ _ _ _ _ size_ok); [apply r_size|intros s1 v1 s1' E; exact (tri_post _ _ _ (tri_raw_size any_ub _) _ _ _ E)|].
  intros num Hn. tell1.
  eapply tells_still; [intros s1 v1 s1' E; split; [unfold lift in E; destruct (resize _ _ _ _ _); try discriminate; injection E as _ <-; reflexivity|];
    exact (tri_post _ _ _ (tri_resize any_ub _ c sz_size 0 _ (nb_tags b) (fun _ => True) (proj1 Hn) I ltac:(apply Forall_forall; auto)) _ _ _ E)|].
  cbv beta. intros tags0 (L1 & _ & B1 & _). change sz_size with 8 in *. change sz_double with 8 in *. rewrite PD8 in B1.
  eapply tells_bind; [glue|apply tells_into; [glue|reflexivity|rewrite L1; apply to_size_id; unfold size_ok, two64 in *; lia|intro; basic]|intro tags].
  tell1.
  eapply tells_still; [intros s1 v1 s1' E; split; [unfold lift in E; destruct (entries_per_node _ _); try discriminate; injection E as _ <-; reflexivity|];
    exact (tri_post _ _ _ (tri_epn any_ub _ _ I) _ _ _ E)|].
  cbv beta. intros e ->.
  eapply tells_still; [intros s1 v1 s1' E; split; [unfold lift in E; destruct (resize _ _ _ _ _); try discriminate; injection E as _ <-; reflexivity|];
    exact (tri_post _ _ _ (tri_resize any_ub _ c 8 0 _ (nb_data b) (fun _ => True) (proj1 (to_size_range _)) I ltac:(apply Forall_forall; auto)) _ _ _ E)|].
  cbv beta. intros data0 (L3 & _ & B3 & _). rewrite PD8 in B3.
  eapply tells_bind; [glue|apply tells_into; [glue|reflexivity| |intro; basic]|intro data].
  { etransitivity; [|apply f_equal; symmetry; exact L3]. exact (bytes_words _ _ B3). }
  tell. unfold node_block_numbers. told.
Qed.

(** What a computation reads, in general. *)
Definition told {A} (m : M A) (R : A -> bytes -> bytes -> Prop) : Prop :=
  forall s a s', m s = Ok (a, s') -> good s' = true -> good s = true /\ exists t, rest s = t ++ rest s' /\ R a t (rest s').

Lemma told_text : forall A (m : M A) K, tells text_numbers [] m K -> told m (fun a => numbers true (K a)).
Proof.
  intros A m K T s a s' E G. destruct (T s a s' E G) as (G0 & t & l & E1 & P1 & K1). split; [exact G0|]. exists t. split; [exact E1|].
  cbn [app] in K1. rewrite K1. exact P1.
Qed.
Lemma told_words : forall A (m : M A) K, tells in_words [] m K -> told m (fun a => in_words (K a)).
Proof.
  intros A m K T s a s' E G. destruct (T s a s' E G) as (G0 & t & l & E1 & P1 & K1). split; [exact G0|]. exists t. split; [exact E1|].
  cbn [app] in K1. rewrite K1. exact P1.
Qed.
Lemma told_raw : forall A (m : unit -> M A) K, tells raw_numbers [] (m tt) K -> told (bind (op eat1) m) (fun a => numbers false (K a)).
Proof.
  intros A m K T s a s' E G. unfold bind in E. destruct (op eat1 s) as [[[] s1]| | | |] eqn:EE; try discriminate.
  destruct (T s1 a s' E G) as (G1 & t & l & E1 & P1 & K1). destruct (eat1_is _ _ EE G1) as (G0 & u & GU & EU). split; [exact G0|].
  exists (u ++ t). split; [rewrite EU, E1, app_assoc; reflexivity|]. cbn [app] in K1. rewrite K1. exists u. unfold raw_numbers in P1. subst t. auto.
Qed.
Lemma told_map : forall A B (m : M A) (f : A -> B) R, told m (fun a => R (f a)) -> told (bind m (fun a => ret (f a))) R.
Proof.
  intros A B m f R T s b s' E G. unfold bind in E. destruct (m s) as [[a s1]| | | |] eqn:EM; try discriminate. injection E as <- <-. exact (T s a s1 EM G).
Qed.

Lemma nodes_told : forall c ascii n, told (if ascii : bool then v41_load_nodes_ascii c n else v41_load_nodes_binary c n)
  (fun n' => numbers ascii (nodes_numbers n')).
Proof.
  intros c [|] n.
  - apply told_text. unfold v41_load_nodes_ascii. tell. eapply tells_bind; [glue|apply tells_mapM; [glue|apply node_block_text]|intro].
    unfold nodes_numbers, sizes. told.
  - apply told_raw. tell. eapply tells_bind; [glue|apply tells_mapM; [glue|apply node_block_raw]|intro].
    unfold nodes_numbers, sizes. told.
Qed.

(** ** Elements *)

Lemma elements_told : forall c ascii e, told (if ascii : bool then v41_load_elements_ascii c e else v41_load_elements_binary c e)
  (fun e' => numbers ascii (elements_numbers e')).
Proof.
  intros c [|] e.
  - apply told_text. unfold v41_load_elements_ascii. tell.
    eapply tells_bind; [glue|apply (tells_mapM _ text_glued _ _ _ element_block_numbers); intro b|intro].
    + unfold v41_element_block_ascii. tell. unfold element_block_numbers. told.
    + unfold elements_numbers, sizes. told.
  - apply told_raw. tell.
    eapply tells_bind; [glue|apply (tells_mapM _ raw_glued _ _ _ element_block_numbers); intro b|intro].
    + unfold v41_element_block_binary. tell. unfold element_block_numbers. told.
    + unfold elements_numbers, sizes. told.
Qed.

(** ** Entities *)

Lemma resize_len : forall A c sz (d : A) n old l, 0 <= n -> resize c sz d n old = Ok l -> zlen l = n.
Proof.
  intros A c sz d n old l Hn E. unfold resize in E. destruct (can_hold _ _ _ _); try discriminate. cbn [obind] in E. injection E as <-.
  unfold zlen. rewrite app_length, firstn_length, repeat_length. lia.
Qed.
Lemma size_opt_ok : forall s o s', op (rd_size_opt None) s = Ok (o, s') -> some size_ok o.
Proof. intros s o s' E. exact (tri_post _ _ _ (tri_size_opt any_ub _ (some_none _ _)) _ _ _ E). Qed.
Lemma raw_size_opt_ok : forall s o s', op (rd_raw_size_opt None) s = Ok (o, s') -> some size_ok o.
Proof. intros s o s' E. exact (tri_post _ _ _ (tri_raw_size_opt any_ub) _ _ _ E). Qed.
Lemma mapM_zlen : forall A B (f : A -> M B) l s r s', mapM f l s = Ok (r, s') -> zlen r = zlen l.
Proof. intros. unfold zlen. f_equal. eapply mapM_length. eassumption. Qed.

Lemma ints_text : forall c o, tells text_numbers [] (ints_ascii c o) counted.
Proof.
  intros c o. unfold ints_ascii.
  eapply tells_bind_fact; [glue|apply f_size_opt|exact size_opt_ok|]. intros k0 Hk. tell1. pose proof (Hk _ eq_refl) as [Hk0 _].
  tell1. apply resize_len in H; [|exact Hk0]. intros s v s' E G. pose proof (mapM_zlen _ _ _ _ _ _ _ E) as L. rewrite H in L.
  destruct (tells_map _ text_glued _ _ (fun x => op (rd_int x)) Int a0 f_int s v s' E G) as (G0 & t & l & E1 & P1 & K1). split; [exact G0|].
  exists t, l. split; [exact E1|]. split; [exact P1|]. unfold counted. rewrite L, K1. reflexivity.
Qed.
Lemma ints_raw : forall c o, tells raw_numbers [] (ints_binary c o) counted.
Proof.
  intros c o. unfold ints_binary.
  eapply tells_bind_fact; [glue|apply r_size_opt|exact raw_size_opt_ok|]. intros k0 Hk. do 2 tell1. pose proof (Hk _ eq_refl) as [Hk0 _].
  tell1. apply resize_len in H; [|exact Hk0].
  eapply (tells_bind_fact _ raw_glued _ _ _ _ _ (fun v => zlen v = zlen a0)); [apply tells_array; [glue|intro; basic]| |].
  { intros s v s' E. unfold rd_raw_array, bind, op in E. destruct (sentry_noskip s) as [b s1]. eapply mapM_zlen. exact E. }
  intros v L. tell. told. unfold counted. rewrite L, H. reflexivity.
Qed.

Lemma point_text : forall c p, tells text_numbers [] (point_ascii c p) point_record.
Proof.
  intros. unfold point_ascii. tell. eapply tells_bind; [glue|apply ints_text|intro]. unfold point_record. told.
Qed.
Lemma entity_text : forall c p, tells text_numbers [] (entity_ascii c p) entity_record.
Proof.
  intros. unfold entity_ascii. tell. do 2 (eapply tells_bind; [glue|apply ints_text|intro]). unfold entity_record. told.
Qed.
Lemma point_raw : forall c p, tells raw_numbers [] (point_binary c p) point_record.
Proof.
  intros. unfold point_binary. tell. eapply tells_bind; [glue|apply ints_raw|intro]. unfold point_record. told.
Qed.
Lemma entity_raw : forall c p, tells raw_numbers [] (entity_binary c p) entity_record.
Proof.
  intros. unfold entity_binary. tell. do 2 (eapply tells_bind; [glue|apply ints_raw|intro]). unfold entity_record. told.
Qed.

Lemma resize_entities_is : forall c np nc ns nv en s e s', resize_entities c np nc ns nv en s = Ok (e, s') ->
  some size_ok np -> some size_ok nc -> some size_ok ns -> some size_ok nv ->
  s' = s /\ np = Some (zlen (points e)) /\ nc = Some (zlen (curves_e e)) /\ ns = Some (zlen (surfaces_e e)) /\ nv = Some (zlen (volumes_e e)).
Proof.
  intros c np nc ns nv en s e s' E H1 H2 H3 H4. unfold resize_entities, bind, use in E.
  destruct np as [np|]; [|discriminate]. cbn [ret] in E. unfold ret, lift in E.
  destruct (resize c sz_PointEntity pe_default np (points en)) as [p| | | |] eqn:E1; try discriminate.
  destruct nc as [nc|]; [|discriminate]. destruct (resize c sz_Entity en_default nc (curves_e en)) as [cu| | | |] eqn:E2; try discriminate.
  destruct ns as [ns|]; [|discriminate]. destruct (resize c sz_Entity en_default ns (surfaces_e en)) as [su| | | |] eqn:E3; try discriminate.
  destruct nv as [nv|]; [|discriminate]. destruct (resize c sz_Entity en_default nv (volumes_e en)) as [vo| | | |] eqn:E4; try discriminate.
  injection E as <- <-. cbn [points curves_e surfaces_e volumes_e].
  apply resize_len in E1; [|apply (H1 _ eq_refl)]. apply resize_len in E2; [|apply (H2 _ eq_refl)].
  apply resize_len in E3; [|apply (H3 _ eq_refl)]. apply resize_len in E4; [|apply (H4 _ eq_refl)]. subst. auto.
Qed.

Lemma flat_map_concat_map : forall A B (f : A -> list B) l, List.concat (map f l) = flat_map f l.
Proof. intros. symmetry. apply List.flat_map_concat_map. Qed.

Ltac four_sizes L F := do 4 (eapply tells_bind_fact; [glue|apply L|exact F|intros ? ?]).
Ltac body T := eapply tells_bind_fact; [glue|apply tells_mapM; [glue|apply T]|intros ? ? ? ?EM; eapply mapM_zlen; exact EM|intros ? ?]; cbv beta in *.

Lemma entities_told : forall c ascii e, told (if ascii : bool then v41_load_entities_ascii c e else v41_load_entities_binary c e)
  (fun e' => numbers ascii (entities_numbers e')).
Proof.
  intros c [|] e.
  - apply told_text. unfold v41_load_entities_ascii. four_sizes f_size_opt size_opt_ok. tell1.
    eapply tells_still; [intros s x s' E; exact (resize_entities_is _ _ _ _ _ _ _ _ _ E ltac:(assumption) ltac:(assumption) ltac:(assumption) ltac:(assumption))|].
    cbv beta. intros x (-> & -> & -> & ->). body point_text. body entity_text. body entity_text. body entity_text. tell. told.
    unfold entities_numbers, entities_records, sizes. cbn [points curves_e surfaces_e volumes_e].
    repeat match goal with L : zlen _ = zlen _ |- _ => rewrite L; clear L end.
    cbn [List.concat map app]. rewrite ?map_app, ?concat_app, ?flat_map_concat_map, <- ?app_assoc. reflexivity.
  - apply told_raw. four_sizes r_size_opt raw_size_opt_ok. tell1.
    eapply tells_still; [intros s x s' E; exact (resize_entities_is _ _ _ _ _ _ _ _ _ E ltac:(assumption) ltac:(assumption) ltac:(assumption) ltac:(assumption))|].
    cbv beta. intros x (-> & -> & -> & ->). body point_raw. body entity_raw. body entity_raw. body entity_raw. told.
    unfold entities_numbers, entities_records, sizes. cbn [points curves_e surfaces_e volumes_e].
    repeat match goal with L : zlen _ = zlen _ |- _ => rewrite L; clear L end.
    cbn [List.concat map app]. rewrite ?map_app, ?concat_app, ?flat_map_concat_map, <- ?app_assoc. reflexivity.
Qed.

(** ** Groups *)

Lemma groups_told : forall c spec, told (load_physical_groups c spec) (fun s => in_words (groups_words (physical_groups s))).
Proof.
  intros c spec. apply told_words. unfold load_physical_groups.
  eapply (tells_bind_fact _ words_glued _ _ _ _ _ (some int_ok)); [apply w_int_opt|
    intros s o s' E; exact (tri_post _ _ _ (tri_int_opt any_ub _ (some_none _ _)) _ _ _ E)|].
  intros k0 Hk. tell1. specialize (Hk _ eq_refl). tell1.
  assert (K : a = zlen a0).
  { assert (0 <= a \/ a < 0) as [N|N] by lia.
    - apply resize_len in H; [rewrite to_size_id in H by (unfold int_ok, INT_MAX, two64 in *; lia); congruence|]. apply to_size_range.
    - exfalso. unfold resize, can_hold in H. replace (to_size a) with (a + two64) in H.
      + replace (PTRDIFF_MAX / sz_PhysicalGroup <? a + two64) with true in H; [discriminate|]. symmetry. apply Z.ltb_lt.
        assert (PTRDIFF_MAX / sz_PhysicalGroup < 2 ^ 63) by reflexivity. unfold int_ok, INT_MIN, two64 in *. lia.
      + unfold to_size. rewrite <- (Z_mod_plus_full a 1 two64), Z.mul_1_l. symmetry. apply Z.mod_small. unfold int_ok, INT_MIN, two64 in *. lia. }
  eapply (tells_bind_fact _ words_glued _ _ _ _ (fun r => flat_map (fun g => [int_written (pg_dim g); int_written (pg_tag g); name_written (pg_name g)]) r) (fun r => zlen r = zlen a0)).
  - apply tells_mapM; [glue|]. intro g. unfold load_group. tell. told.
  - intros s r s' E. eapply mapM_zlen. exact E.
  - intros r L. tell. told. rewrite K, <- L. reflexivity.
Qed.

(** ** Data *)

Lemma tells_counted : forall A B c sz (d : A) n0 (f : A -> M A) k (h : list A -> M B) pre K, (forall x, tells in_words [] (f x) (fun a => [k a])) ->
  some size_ok n0 ->
  (forall r, tells in_words (pre ++ [size_written (zlen r)] ++ map k r) (h r) K) ->
  tells in_words (pre ++ opt size_written n0) (n <- use n0 ;; l0 <- lift (resize c sz d n []) ;; r <- mapM f l0 ;; h r) K.
Proof.
  intros A B c sz d n0 f k h pre K T S H. tell1. tell1. apply resize_len in H0; [|apply (S _ eq_refl)].
  eapply (tells_bind_fact _ words_glued _ _ _ _ _ (fun r => zlen r = zlen a0)); [apply tells_map; [glue|exact T]|intros s r s' E; eapply mapM_zlen; exact E|].
  intros r L. specialize (H r). rewrite L, H0 in H. cbn [opt]. rewrite <- app_assoc. exact H.
Qed.

Lemma header_tells : forall c, tells in_words [] (load_data_header c) tags_words.
Proof.
  intro c. unfold load_data_header.
  eapply tells_bind_fact; [glue|apply w_size_opt|exact size_opt_ok|]. intros n1 S1.
  apply (tells_counted _ _ c sz_string [] n1 _ name_written _ [] _ w_quoted S1). intro st.
  eapply tells_bind_fact; [glue|apply w_size_opt|exact size_opt_ok|]. intros n2 S2.
  apply (tells_counted _ _ c sz_double 0 n2 _ real_written _ _ _ w_double S2). intro rt.
  eapply tells_bind_fact; [glue|apply w_size_opt|exact size_opt_ok|]. intros n3 S3.
  apply (tells_counted _ _ c sz_int 0 n3 _ int_written _ _ _ w_int S3). intro it.
  tell. unfold tags_words. told.
Qed.

Lemma entry_text_tells : forall c fields end_ e, tells in_words [] (entry_ascii c fields end_ e) (entry_words end_).
Proof.
  intros c fields end_ e. unfold entry_ascii. tell. destruct end_; tell; unfold entry_words; told.
Qed.

(** Literally these bytes. *)
Definition same_bytes (l t r : bytes) : Prop := t = l.
Lemma same_glued : glued same_bytes.
Proof. split; [reflexivity|]. intros a b s t r -> ->. reflexivity. Qed.
Lemma tells_bytes : forall A (m : M A) K, tells raw_numbers [] m K -> tells same_bytes [] m (fun a => flat_map raw_of (K a)).
Proof.
  intros A m K T s a s' E G. destruct (T s a s' E G) as (G0 & t & l & E1 & P1 & K1). split; [exact G0|]. exists t, t. split; [exact E1|].
  split; [reflexivity|]. cbn [app] in *. rewrite K1. symmetry. exact P1.
Qed.

Lemma entry_raw_tells : forall c is22 fields end_ e, tells same_bytes [] (entry_binary c is22 fields end_ e)
  (fun x => flat_map raw_of (entry_record end_ x)).
Proof.
  intros c is22 fields end_ e. unfold entry_binary. eapply tells_bind; [exact same_glued|apply tells_bytes, r_int_opt|intro t0].
  apply tells_use. intros t ->.
  eapply (tells_bind _ same_glued _ _ _ _ (fun npe => flat_map raw_of (if end_ then [Int npe] else []))).
  { destruct end_; [|apply tells_ret; [exact same_glued|reflexivity]]. destruct is22.
    - apply (tells_bytes _ _ (fun npe => [Int npe])). tell1. destruct a as [a|]; [|apply tells_undef]. apply tells_ret; [glue|reflexivity].
    - apply tells_bytes. apply r_int. }
  intro npe. apply tells_lift. intros data0 _.
  eapply tells_bind; [exact same_glued|apply tells_bytes, tells_array; [glue|intro; basic]|intro data].
  apply tells_ret; [exact same_glued|]. unfold entry_record. cbn [de_tag de_npe de_data].
  cbn [flat_map opt app raw_of]. rewrite le4_to_size, flat_map_app, <- ?app_assoc. reflexivity.
Qed.

Lemma data_told : forall c v bin end_, told (load_data c v bin end_) (data_text (negb bin) end_).
Proof.
  intros c v bin end_ s d s' E G. unfold load_data in E. unfold bind at 1 in E. destruct (load_data_header c s) as [[h s1]| | | |] eqn:EH; try discriminate.
  destruct (int_tags h) as [|i0 [|i1 [|i2 il]]]; try discriminate. cbv zeta in E.
  unfold bind at 1 in E. unfold lift in E. destruct (resize c sz_DataEntry de_default (to_size i2) []) as [l0| | | |]; try discriminate.
  set (T := fun s d s' => good s = true /\ exists t, rest s = t ++ rest s' /\
    if bin then exists u, maybe_gap u /\ t = u ++ flat_map (fun e => flat_map raw_of (entry_record end_ e)) (d_entries d)
    else in_words (flat_map (entry_words end_) (d_entries d)) t (rest s')).
  assert (X : T s1 d s' /\ d_header d = h).
  { unfold bind at 1 in E. destruct bin.
    - unfold bind at 1 in E. destruct (op eat1 s1) as [[[] s2]| | | |] eqn:EE; try discriminate.
      assert (Y : exists is22 l s3, mapM (entry_binary c is22 (to_size i1) end_) l0 s2 = Ok (l, s3) /\
        (assert_good c ;; ret {| d_header := h; d_entries := l |}) s3 = Ok (d, s')).
      { destruct (bytes_eqb v v41s); [|destruct (bytes_eqb v v22s); [|discriminate]];
          (match type of E with match ?m with _ => _ end = _ => destruct m as [[l s3]| | | |] eqn:EM end; try discriminate; eexists _, l, s3; split; [exact EM|exact E]). }
      clear E. destruct Y as (is22 & l & s3 & EM & E). unfold bind in E. destruct (assert_good c s3) as [[[] s4]| | | |] eqn:EA; try discriminate.
      injection E as <- <-. assert (s4 = s3) by (unfold assert_good, massert in EA; destruct (ndebug c), (good s3); congruence). subst s4.
      split; [|reflexivity]. destruct (tells_mapM _ same_glued _ _ _ _ l0 (entry_raw_tells c is22 (to_size i1) end_) _ _ _ EM G) as (G2 & t & l' & E1 & P1 & K1).
      destruct (eat1_is _ _ EE G2) as (G1 & u & GU & EU). split; [exact G1|]. exists (u ++ t). split; [rewrite EU, E1, app_assoc; reflexivity|].
      exists u. split; [exact GU|]. unfold same_bytes in P1. subst l'. cbn [d_entries app] in *. rewrite K1. reflexivity.
    - destruct (mapM (entry_ascii c (to_size i1) end_) l0 s1) as [[l s3]| | | |] eqn:EM; try discriminate.
      unfold bind in E. destruct (assert_good c s3) as [[[] s4]| | | |] eqn:EA; try discriminate.
      injection E as <- <-. assert (s4 = s3) by (unfold assert_good, massert in EA; destruct (ndebug c), (good s3); congruence). subst s4.
      split; [|reflexivity]. destruct (tells_mapM _ words_glued _ _ _ _ l0 (entry_text_tells c (to_size i1) end_) _ _ _ EM G) as (G2 & t & l' & E1 & P1 & K1).
      split; [exact G2|]. exists t. split; [exact E1|]. cbn [d_entries app] in *. rewrite K1. exact P1. }
  destruct X as ((G1 & t & E1 & X) & HH). destruct (header_tells c _ _ _ EH G1) as (G0 & t0 & l & E0 & P0 & K0). split; [exact G0|].
  exists (t0 ++ t). split; [rewrite E0, E1, app_assoc; reflexivity|]. cbn [app] in K0. unfold data_text. rewrite HH, K0. destruct bin; cbn [negb].
  - destruct X as (u & GU & ->). exists t0, u, (flat_map (fun e => flat_map raw_of (entry_record end_ e)) (d_entries d)). rewrite E1, <- app_assoc in P0. auto.
  - apply in_words_app; [rewrite <- E1; exact P0|exact X].
Qed.

(** ** The dispatch *)

(** Field by field, what a section adds. *)
Lemma load_nodes_told : forall c spec s spec' s', load_nodes c spec s = Ok (spec', s') -> good s' = true -> version (mesh_format spec) <> str "2.2" ->
  exists ascii t, rest s = t ++ rest s' /\ numbers ascii (nodes_numbers (nodes spec')) t (rest s').
Proof.
  intros c spec s spec' s' E G V. apply (bytes_eqb_neq _ v22s) in V. unfold load_nodes in E. cbv zeta in E. rewrite V in E.
  destruct (bytes_eqb _ v41s); [|discriminate]. set (ascii := file_type (mesh_format spec) =? 0) in E. exists ascii.
  match type of E with bind (if _ then v41_load_nodes_ascii _ ?n else _) _ _ = _ =>
    destruct (told_map _ _ _ (fun n' => set_nodes n' spec) (fun s => numbers ascii (nodes_numbers (nodes s))) (nodes_told c ascii n) _ _ _ E G) as (_ & t & E1 & P1) end.
  eauto.
Qed.
Lemma load_elements_told : forall c spec s spec' s', load_elements c spec s = Ok (spec', s') -> good s' = true -> version (mesh_format spec) <> str "2.2" ->
  exists ascii t, rest s = t ++ rest s' /\ numbers ascii (elements_numbers (elements spec')) t (rest s').
Proof.
  intros c spec s spec' s' E G V. apply (bytes_eqb_neq _ v22s) in V. unfold load_elements in E. cbv zeta in E. rewrite V in E.
  destruct (bytes_eqb _ v41s); [|discriminate]. set (ascii := file_type (mesh_format spec) =? 0) in E. exists ascii.
  match type of E with bind (if _ then v41_load_elements_ascii _ ?n else _) _ _ = _ =>
    destruct (told_map _ _ _ (fun n' => set_elements n' spec) (fun s => numbers ascii (elements_numbers (elements s))) (elements_told c ascii n) _ _ _ E G) as (_ & t & E1 & P1) end.
  eauto.
Qed.
Lemma load_entities_told : forall c spec s spec' s', load_entities c spec s = Ok (spec', s') -> good s' = true ->
  entities spec' = entities spec \/ exists ascii t, rest s = t ++ rest s' /\ numbers ascii (entities_numbers (entities spec')) t (rest s').
Proof.
  intros c spec s spec' s' E G. unfold load_entities in E. cbv zeta in E.
  destruct (bytes_eqb _ v41s); [|destruct (bytes_eqb _ v22s); [discriminate|injection E as <- <-; left; reflexivity]].
  right. set (ascii := file_type (mesh_format spec) =? 0) in E. exists ascii.
  match type of E with bind (if _ then v41_load_entities_ascii _ ?n else _) _ _ = _ =>
    destruct (told_map _ _ _ (fun n' => set_entities n' spec) (fun s => numbers ascii (entities_numbers (entities s))) (entities_told c ascii n) _ _ _ E G) as (_ & t & E1 & P1) end.
  eauto.
Qed.
