(** Reading 2.2 files in any layout. *)

From Verif Require Import Spec.Words Spec.Warnings Model.LoadMsh Spec.Any22 Spec.Steps Proofs.BytesP Proofs.RtBase Proofs.WriteP Proofs.RtStep
  Proofs.Compose Proofs.Rt41 Proofs.PostP Proofs.Load22P Proofs.File22P Proofs.EntP Proofs.ElemP Proofs.Text22P Proofs.Text41P.

Ltac Zify.zify_post_hook ::= idtac.

(** ** Nodes *)

Lemma nodes22_w : forall c n l, nodes_mem c n l ->
  RTw (v22_load_nodes_ascii c n) (size_word (zlen l) :: flat_map node22_kinds l) (nodes_after n l).
Proof.
  intros c n l [M1 M2]. unfold v22_load_nodes_ascii.
  eapply RTw_bind0; [intros; apply lift_ok; apply hold_fits; exact M1|].
  rw1. rw1. eapply RTw_bind0; [intros; apply lift_ok; apply resizes_ok; [apply zlen_nonneg|exact M2]|].
  eapply RTw_last; [|apply RTw_ret].
  apply RTw_mapM; [rewrite repeat_length; unfold zlen; lia|].
  intros x v _ _. unfold v22_node_ascii, node22_kinds. do 4 rw1. rw1. apply RTw_ret.
Qed.

Lemma nodes22_x : forall c n l, Forall node_int l -> nodes_mem c n l ->
  RX (v22_load_nodes_binary c n) [size_word (zlen l)] (List.concat (map node_bytes l)) (nodes_after n l).
Proof.
  intros c n l HT [M1 M2] h HL u Hu. unfold v22_load_nodes_binary.
  eapply EX_bind0; [intros; apply lift_ok; apply hold_fits; exact M1|].
  revert h HL u Hu. apply (RX_last _ _ _ _ _ (zlen l)); [apply RTl_size|]. intros g G.
  eapply EX_bind0; [intros; apply assert_good_ok; assumption|].
  eapply EX_bind0; [intros; apply lift_ok; apply resizes_ok; [apply zlen_nonneg|exact M2]|].
  apply eat1_gap_then; [exact G|]. eapply RB_last; [|apply RB_ret].
  apply mapM_RB'; [rewrite repeat_length; unfold zlen; lia|].
  intros x v _ Hv. rewrite Forall_forall in HT. apply node_binary_RB. auto.
Qed.

(** ** Elements *)

Lemma element22_w : forall c st r, rec_ok r -> rec_mem c r -> fits c sz_ElementBlock (zlen (va_blocks st) + 1) ->
  zlen (er_tags r) <= INT_MAX ->
  RTw (v22_element_ascii c st) (rec_kinds r) (va_after st r).
Proof.
  intros c st r HR [M1 M2] M3 HN. pose proof HR as [R1 R2 R3 R4]. pose proof (zlen_nonneg _ (er_tags r)) as NT.
  destruct (gmsh_nodes_spec _ _ R2) as (E & En & Et). unfold rec_kinds, v22_element_ascii.
  do 3 rw1. eapply RTw_bind0; [intros; apply use_ok|].
  rewrite to_size_id by (unfold INT_MAX, two64 in *; lia).
  destruct (fits_resize _ c sz_int 0 (zlen (er_tags r)) (va_tags st) ltac:(reflexivity) NT M1) as (v1 & E1 & L1).
  eapply RTw_bind0; [intros; apply lift_ok; exact E1|].
  eapply RTw_bind; [apply mapM_ints_w; apply zlen_length; exact L1|].
  eapply RTw_bind0; [intros; apply use_ok|].
  eapply RTw_bind0; [intros; apply lift_ok; exact E|].
  destruct (fits_resize _ c sz_int 0 (zlen (er_nodes r)) (va_ids st) ltac:(reflexivity) ltac:(lia) M2) as (v2 & E2 & L2).
  eapply RTw_bind0; [intros; apply lift_ok; exact E2|].
  eapply RTw_last; [apply mapM_ints_w; apply zlen_length; exact L2|].
  eapply RTw_bind0; [intros; apply use_ok|].
  eapply RTw_bind0; [intros; apply lift_ok; apply rec_dim_ok; exact HR|].
  rewrite classify_rec. fold (rec_block r).
  eapply RTw_bind0; [intros; apply lift_ok; unfold emplace_back; rewrite hold_fits by exact M3; reflexivity|].
  apply RTw_ret.
Qed.

Lemma elements22_loop : forall c recs st, Forall rec_ok recs ->
  Forall (fun r => zlen (er_tags r) <= INT_MAX) recs -> Forall (rec_mem c) recs ->
  fits c sz_ElementBlock (zlen (va_blocks st) + zlen recs) ->
  RTw (iterM (List.length recs) (v22_element_ascii c) st) (flat_map rec_kinds recs) (fold_left va_after recs st).
Proof.
  intros c recs. induction recs as [|r recs IH]; intros st HR HN HM HF.
  - apply RTw_ret.
  - inversion HR; inversion HN; inversion HM; subst. cbn [List.length iterM fold_left flat_map].
    rewrite zlen_cons in HF. pose proof (zlen_nonneg _ recs).
    eapply RTw_bind.
    + apply element22_w; try eassumption. eapply fits_le; [| |exact HF]; [reflexivity|lia].
    + apply IH; try assumption. cbn [va_after va_blocks]. rewrite zlen_app.
      eapply fits_le; [| |exact HF]; [reflexivity|]. change (zlen [rec_block r]) with 1. lia.
Qed.

Lemma elements22_w : forall c e en recs, recs_fit c e recs ->
  RTw (v22_load_elements_ascii c e en) (size_word (zlen recs) :: flat_map rec_kinds recs) (elements_after true e en recs).
Proof.
  intros c e en recs [F1 F2 F3 F4]. unfold v22_load_elements_ascii. rw1.
  eapply RTw_bind0; [intros; apply use_ok|].
  replace (Z.to_nat (zlen recs)) with (List.length recs) by (unfold zlen; lia).
  match goal with |- context [iterM _ _ ?s] => set (st := s) end.
  eapply RTw_last; [apply (elements22_loop c recs st F1 F2 F3); exact F4|].
  destruct (va_after_inv recs st (e_blocks e) (e_min e) (e_max e) F1 eq_refl eq_refl eq_refl eq_refl)
    as (H1 & H2 & H3 & H4).
  rewrite H1, H2, H3, H4. apply RTw_ret.
Qed.

Lemma elements22_x : forall c e en bs, blocks_fit c e bs ->
  RX (v22_load_elements_binary c e en) [size_word (zlen (flat_map bl_recs bs))] (List.concat (map block22_bytes bs))
     (elements_after false e en (flat_map bl_recs bs)).
Proof.
  intros c e en bs [F1 F2 F3 F4 F5]. set (recs := flat_map bl_recs bs) in *.
  pose proof (zlen_nonneg _ recs) as P. pose proof (zlen_nonneg _ (e_blocks e)) as PE.
  unfold v22_load_elements_binary.
  apply (RX_last _ _ _ _ _ (zlen recs)); [apply RTl_size|]. intros g G.
  eapply EX_bind0.
  { intros; apply lift_ok; apply hold_fits. eapply fits_le; [| |exact F5]; [reflexivity|lia]. }
  apply eat1_gap_then; [exact G|]. intros rest Hr. unfold bind. cbn [IStream.rest opened].
  match goal with |- context [v22_elements_loop ?f c ?N ?s] => set (fuel := f); set (st := s) end.
  destruct (blocks_loop_b c (zlen recs) bs fuel st) as (st' & (S1 & S2 & S3 & S4 & S5) & HI); try assumption.
  { unfold fuel. rewrite app_length. pose proof (blocks_length bs). lia. }
  { reflexivity. }
  rewrite (HI rest Hr).
  destruct (vb_after_inv recs st (e_blocks e) eq_refl eq_refl eq_refl eq_refl) as (H1 & H2 & H3 & H4).
  fold recs in S1, S2, S3, S4, S5. rewrite H1 in S4. rewrite H2 in S5. rewrite H3 in S1. rewrite H4 in S2.
  rewrite S1, S2, S4, S5. reflexivity.
Qed.

(** ** Sections *)

Lemma part22_LOADS : forall c ascii p t spec, sec22_text ascii (Part p) t -> part_ok ascii p -> fmt v22s ascii spec ->
  part_fits c spec p -> LOADS c t spec (part_after ascii spec p).
Proof.
  intros c ascii p t spec (sep & b & sep' & W & N & W' & N' & HB & ->) HO HF [F1 F2].
  destruct p as [l|l]; cbn [part_ok part_after part_name part_body] in *.
  - assert (T : word (str "Nodes")) by (split; [discriminate|repeat constructor]).
    pose proof (nodes_dispatch c ascii spec _ HF eq_refl) as ED. change (str "$Nodes") with (x24 :: str "Nodes") in ED.
    destruct ascii.
    + apply LOADS1_LOADS, any_section_RT; try assumption; try exact eq_refl. rewrite ED.
      apply (RT_map_ret _ _ _ (fun n' => set_nodes n' spec)). apply nodes22_w; assumption.
    + destruct HB as (h & s & HL & Ws & ->).
      eapply LOADS1_LOADS, (any_section c _ _ _ _ _ _ s); try assumption; try exact eq_refl. rewrite ED.
      rewrite !app_assoc. apply (EX_sep _ _ _ (fun n' => set_nodes n' spec)); [exact Ws|]. rewrite <- app_assoc.
      apply nodes22_x; try assumption.
      eapply Forall_impl; [|exact HO]. cbn beta. intros n (H1 & H2 & H3 & H4 & H5).
      specialize (H5 eq_refl). unfold node_int, size_ok in *. tauto.
  - assert (T : word (str "Elements")) by (split; [discriminate|repeat constructor]).
    pose proof (elements_dispatch c ascii spec _ HF eq_refl) as ED. change (str "$Elements") with (x24 :: str "Elements") in ED.
    destruct F2 as [M1 M2]. destruct (prior_eblocks (elements spec)) as (P1 & P2 & P3).
    assert (R1 : Forall rec_ok l) by (eapply Forall_impl; [|exact HO]; cbn beta; tauto).
    assert (R2 : Forall (fun r => zlen (er_tags r) <= INT_MAX) l) by (eapply Forall_impl; [|exact HO]; cbn beta; tauto).
    destruct ascii.
    + apply LOADS1_LOADS, any_section_RT; try assumption; try exact eq_refl. rewrite ED.
      apply (RT_map_ret _ _ _ (fun r' => set_entities (snd r') (set_elements (fst r') spec))).
      apply elements22_w; try assumption. split; try assumption. rewrite P1. exact M2.
    + destruct HB as (h & bs & s & HL & Ws & -> & B1 & B2 & ->).
      eapply LOADS1_LOADS, (any_section c _ _ _ _ _ _ s); try assumption; try exact eq_refl. rewrite ED.
      rewrite !app_assoc. apply (EX_sep _ _ _ (fun r' => set_entities (snd r') (set_elements (fst r') spec))); [exact Ws|].
      rewrite <- app_assoc. apply elements22_x; try assumption.
      apply Forall_flat in R1, M1. split; [exact B1|exact R1| | |rewrite P1; exact M2].
      * rewrite Forall_forall in *. intros b Hb. apply block_mem_of; [apply B1|apply R1|apply M1|apply B2]; exact Hb.
      * intro HN. rewrite Forall_forall in B2. apply B2.
        clear -HN. induction bs as [|b [|b' bs] IH]; [congruence|left; reflexivity|].
        right. apply IH. discriminate.
Qed.

Definition after22 (ascii : bool) (s : MshSpec) (q : sec22) : MshSpec :=
  match q with Part p => part_after ascii s p | Extra p => after s p end.

Lemma bare_part : forall ascii s p, bare (part_after ascii s p) = part_after ascii (bare s) p.
Proof. intros ascii s [l|l]; reflexivity. Qed.

Lemma bare_extra : forall s p, ~ raw_start p -> bare (after s p) = bare s.
Proof. intros s p N. destruct p; try (exfalso; apply N; exact I); reflexivity. Qed.

Lemma secs22_LOADS : forall c ascii qs r spec, secs22_text ascii qs r -> Forall (sec22_ok c ascii) qs ->
  fmt v22s ascii spec -> all_fit c ascii (bare spec) (parts_of qs) ->
  LOADSw c (fun _ => True) (unknown_of (map sec_name (extras_of qs))) r spec (fold_left (after22 ascii) qs spec) /\
  bare (fold_left (after22 ascii) qs spec) = fold_left (part_after ascii) (parts_of qs) (bare spec).
Proof.
  intros c ascii qs r spec H. revert spec. induction H as [|q qs l t r HL HT HR IH]; intros spec F FM A.
  - split; [apply LOADSw_nil; exact I|reflexivity].
  - inversion F as [|? ? Fq F']; subst. destruct q as [p|p].
    + cbn [parts_of flat_map app all_fit] in A. destruct A as [A1 A2]. fold (parts_of qs) in A2.
      destruct (IH (part_after ascii spec p) F') as [L E].
      * destruct FM. destruct p; split; assumption.
      * rewrite bare_part. exact A2.
      * split.
        -- eapply (LOADSw_app _ _ []); [apply LOADS1_LOADS, loose_LOADS; exact HL|]. cbn [fold_left after22].
           eapply (LOADSw_app _ _ []); [|exact L]. apply part22_LOADS; try assumption.
           destruct A1 as [B1 B2]. split; assumption.
        -- cbn [fold_left after22 parts_of flat_map app]. rewrite E, bare_part. reflexivity.
    + destruct HT as [NR HT].
      destruct (IH (after spec p) F') as [L E].
      * unfold fmt. rewrite after_fmt. exact FM.
      * rewrite bare_extra by exact NR. exact A.
      * split.
        -- assert (EU : unknown_of (map sec_name (extras_of (Extra p :: qs))) =
             unknown_of [sec_name p] ++ unknown_of (map sec_name (extras_of qs)))
             by exact (filter_app _ [sec_name p] (map sec_name (extras_of qs))).
           rewrite EU. apply (LOADSw_app _ _ [] (unknown_of [sec_name p] ++ unknown_of (map sec_name (extras_of qs))) _ _ _ spec);
             [apply LOADS1_LOADS, loose_LOADS; exact HL|]. cbn [fold_left after22].
           eapply LOADSw_app; [|exact L].
           eapply LOADSw_imp; [|apply (extra_LOADS c v22s ascii); auto]. intros; exact I.
        -- cbn [fold_left after22]. rewrite E, bare_extra by exact NR. reflexivity.
Qed.

(** The other fields. *)
Record extras_are (e s : MshSpec) : Prop := {
  xa_groups : physical_groups s = physical_groups e;
  xa_nd : node_data s = node_data e;
  xa_ed : element_data s = element_data e;
  xa_end : element_node_data s = element_node_data e;
  xa_ns : ns_version s = ns_version e;
  xa_curves : curves s = curves e;
  xa_patches : patches s = patches e }.

Lemma extras_after : forall e s p, extras_are e s -> extras_are (after e p) (after s p).
Proof. intros e s p [H1 H2 H3 H4 H5 H6 H7]. destruct p; split; cbn; congruence. Qed.

Lemma extras_fold : forall ascii qs s e, extras_are e s ->
  extras_are (fold_left after (extras_of qs) e) (fold_left (after22 ascii) qs s).
Proof.
  intros ascii. induction qs as [|q qs IH]; intros s e H; [exact H|].
  destruct q as [p|p]; cbn [extras_of flat_map app fold_left after22]; fold (extras_of qs).
  - apply IH. destruct H. destruct p; split; assumption.
  - apply IH. apply extras_after. exact H.
Qed.

(** ** Post-processing *)

Lemma post_extras : forall c s s', post_process c s = Ok s' -> extras_are s s'.
Proof.
  intros c s s' H. unfold post_process in H. destruct (bytes_eqb _ _).
  - unfold regroup_nodes in H.
    repeat match type of H with obind (obind ?x _) _ = _ => destruct x; cbn [obind] in H; try discriminate end.
    unfold regroup_elements in H.
    repeat match type of H with obind ?x _ = _ => destruct x; cbn [obind] in H; try discriminate end.
    injection H as <-. split; reflexivity.
  - injection H as <-. split; reflexivity.
Qed.

Lemma post_bare : forall c s s0, post_process c (bare s) = Ok s0 -> exists s', post_process c s = Ok s' /\ bare s' = s0.
Proof.
  intros c s s0 H. unfold post_process in *. cbn [bare mesh_format] in H. destruct (bytes_eqb _ _).
  - unfold regroup_nodes in *. cbn [bare nodes elements] in H.
    repeat match type of H with obind (obind ?x _) _ = _ => destruct x; cbn [obind] in H |- *; try discriminate end.
    unfold regroup_elements in *. cbn [set_nodes elements] in H |- *. cbn [bare elements] in H.
    repeat match type of H with obind ?x _ = _ => destruct x; cbn [obind] in H |- *; try discriminate end.
    injection H as <-. eexists. split; reflexivity.
  - injection H as <-. eexists. split; reflexivity.
Qed.

(** ** The file *)

Lemma any22_LOADS : forall c ascii qs b lo hi, any22 ascii qs b -> Forall (sec22_ok c ascii) qs ->
  loadable c (parts_of qs) lo hi -> exists raw s,
    LOADSw c (fun _ => True) (unknown_of (map sec_name (extras_of qs))) b spec_default raw /\
    post_process c raw = Ok s /\ content22 ascii qs lo hi s.
Proof.
  intros c ascii qs b lo hi (l & h & r & l' & HL & HH & HR & HL' & ->) OK HD.
  set (s0 := set_format (format_22 ascii) spec_default).
  assert (HO : Forall (part_ok ascii) (parts_of qs)).
  { apply Forall_forall. intros p Hp. apply in_flat_map in Hp. destruct Hp as (q & Hq & Hp).
    rewrite Forall_forall in OK. specialize (OK q Hq). destruct q; [|destruct Hp]. destruct Hp as [<-|[]]. exact OK. }
  assert (HI : inv22 c s0).
  { pose proof (inv22_default c) as [I1 I2 I3 I4 I5 I6 I7 I8 I9 I10 I11]. split; assumption. }
  pose proof HD as [D1 D2 D3 D4 D5 D6 D7 D8 D9].
  destruct (parts_fold c ascii (parts_of qs) s0 HO) as (HA & HR' & HP).
  { split; reflexivity. }
  { exact HI. }
  { apply Forall_flat in D9. rewrite Forall_forall in *. intros p Hp. split; [apply D7; exact Hp|].
    rewrite Forall_forall. intros x Hx. specialize (D9 p Hp). rewrite Forall_forall in D9. exact (D9 x Hx). }
  { exact D6. }
  { exact D8. }
  destruct (secs22_LOADS c ascii qs r s0 HR OK) as [LD EB].
  { split; reflexivity. }
  { exact HA. }
  change (bare s0) with s0 in EB. set (raw := fold_left (after22 ascii) qs s0) in *.
  rewrite <- EB in HR', HP.
  destruct (raw_mesh c ascii (parts_of qs) lo hi (bare raw) HO HD HR' HP) as (sb & PB & MB).
  destruct (post_bare c raw sb PB) as (s & PS & ES). exists raw, s. split; [|split; [exact PS|]].
  - eapply (LOADSw_app _ _ []); [apply LOADS1_LOADS, loose_LOADS; exact HL|].
    eapply (LOADSw_app _ _ []); [apply LOADS1_LOADS, (header_LOADS_any c "2.2"); [right; reflexivity|exact HH]|].
    rewrite <- (app_nil_r (unknown_of _)).
    eapply LOADSw_app; [exact LD|apply LOADS1_LOADS, loose_LOADS; exact HL'].
  - pose proof (extras_fold ascii qs s0 s0 ltac:(split; reflexivity)) as [X1 X2 X3 X4 X5 X6 X7]. fold raw in X1, X2, X3, X4, X5, X6, X7.
    rewrite fold_content in X1, X2, X3, X4, X5, X6, X7. pose proof (post_extras c raw s PS) as [Y1 Y2 Y3 Y4 Y5 Y6 Y7].
    split; [rewrite ES; exact MB|etransitivity; [eassumption|]..]; assumption.
Qed.

Theorem any22_loads : forall c ascii qs b lo hi, any22 ascii qs b -> Forall (sec22_ok c ascii) qs ->
  loadable c (parts_of qs) lo hi -> exists s, load_msh c b = Ok s /\ content22 ascii qs lo hi s.
Proof.
  intros c ascii qs b lo hi H OK HD. destruct (any22_LOADS c ascii qs b lo hi H OK HD) as (raw & s & L & P & C).
  exists s. split; [|exact C]. rewrite (LOADSw_file _ _ _ _ _ L). exact P.
Qed.
