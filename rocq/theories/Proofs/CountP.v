(** The element count of 2.2 binary $Elements sections. *)

From Verif Require Import Model.LoadMsh Spec.Text22 Spec.Numerals Proofs.BytesP Proofs.RtBase Proofs.RtStep Proofs.Reach Proofs.ElemP Proofs.TriP
  Proofs.Load22P Proofs.File22P Proofs.TextP Proofs.Text22P Proofs.HeaderP Proofs.NumeralsP.

(** Reading [t] throws [e], whatever follows. *)
Definition TH {A} (r : M A) (t : bytes) (e : exn) : Prop :=
  forall rest, rest <> [] -> r (opened (t ++ rest)) = Throw e.

Lemma TH_bind : forall A B (m : M A) (f : A -> M B) t1 t2 a p e, EX m t1 a p -> TH (f a) (p ++ t2) e ->
  TH (bind m f) (t1 ++ t2) e.
Proof.
  intros A B m f t1 t2 a p e H1 H2 rest Hr. unfold bind. rewrite <- app_assoc.
  rewrite H1 by (destruct t2; [exact Hr|discriminate]). rewrite app_assoc. apply H2. exact Hr.
Qed.

Lemma TH_bind0 : forall A B (m : M A) (f : A -> M B) t a e,
  (forall s, eofb s = false -> failb s = false -> m s = Ok (a, s)) -> TH (f a) t e -> TH (bind m f) t e.
Proof. intros A B m f t a e H1 H2 rest Hr. unfold bind. rewrite H1 by reflexivity. apply H2. exact Hr. Qed.

Lemma TH_fails : forall A B (m : M A) (f : A -> M B) t e, TH m t e -> TH (bind m f) t e.
Proof. intros A B m f t e H rest Hr. unfold bind. rewrite (H rest Hr). reflexivity. Qed.

Lemma TH_frame : forall A (r : M A) t u e, TH r t e -> TH r (t ++ u) e.
Proof. intros A r t u e H rest Hr. rewrite <- app_assoc. apply H. destruct u; [exact Hr|discriminate]. Qed.

Lemma TH_frame1 : forall A (r : M A) t u e, TH r t e -> u <> [] -> r (opened (t ++ u)) = Throw e.
Proof. intros A r t u e H Hu. apply H. exact Hu. Qed.

(** One element too many. *)
Lemma element_over : forall c N id0 st r nt, rec_ok r -> zlen (er_tags r) = nt -> 4 * nt <= INT_MAX ->
  zlen (vb_tags st) = nt -> zlen (vb_ids st) = zlen (er_nodes r) -> N <= vb_done st ->
  fits c sz_ElementBlock (zlen (vb_blocks st) + 1) ->
  TH (v22_element_binary c (er_type r) nt N (id0, st)) (rec_bytes r) (InvalidFormat (str "Inconsistent element count detected!")).
Proof.
  intros c N id0 st r nt HR H1 H2 H3 H4 HN HF. pose proof HR as [R1 R2 R3 R4].
  unfold v22_element_binary, rec_bytes, ints.
  eapply TH_bind; [apply rd_raw_int_opt_RB; exact R1|]. cbn [app].
  replace (INT_MAX <? 4 * nt) with false by (symmetry; apply Z.ltb_ge; exact H2).
  eapply TH_bind0; [intros; reflexivity|].
  eapply TH_bind; [apply rd_raw_array_RB; [apply zlen_length; congruence|]|].
  { intros o v Hv. apply rd_raw_int_RB. rewrite Forall_forall in R3. auto. }
  cbn [app]. rewrite <- (app_nil_r (List.concat (map (le 4) (er_nodes r)))).
  eapply TH_bind; [apply rd_raw_array_RB; [apply zlen_length; exact H4|]|].
  { intros o v Hv. apply rd_raw_int_RB. rewrite Forall_forall in R4. auto. }
  cbn [app].
  eapply TH_bind0; [intros; apply use_ok|].
  eapply TH_bind0; [intros; apply lift_ok; apply rec_dim_ok; exact HR|].
  rewrite classify_rec. fold (rec_block r).
  eapply TH_bind0; [intros; apply lift_ok; unfold emplace_back; rewrite hold_fits by exact HF; reflexivity|].
  cbv zeta. replace (N <? vb_done st + 1) with true by (symmetry; apply Z.ltb_lt; lia).
  intros rest Hr. reflexivity.
Qed.

Lemma iterM_app : forall S (f : S -> M S) n m s s0, iterM (n + m) f s s0 = bind (iterM n f s) (iterM m f) s0.
Proof.
  intros S f n m. induction n as [|n IH]; intros s s0; [reflexivity|].
  cbn [Nat.add iterM]. unfold bind in *. destruct (f s s0) as [[a s1]| | | |]; try reflexivity. apply IH.
Qed.

(** The loop of a block up to its records. *)
Lemma block_start : forall c N b fuel st, gmsh_nodes (bl_type b) <> None -> zlen (bl_recs b) <= INT_MAX ->
  0 <= bl_ntags b <= INT_MAX -> block_mem c b -> vb_done st <> N ->
  exists n v1 v2, gmsh_nodes (bl_type b) = Some n /\ zlen v1 = bl_ntags b /\ zlen v2 = n /\
    let st1 := {| vb_tags := v1; vb_ids := v2; vb_min := vb_min st; vb_max := vb_max st;
                  vb_done := vb_done st; vb_blocks := vb_blocks st; vb_pm := vb_pm st |} in
    forall rest, rest <> [] ->
    v22_elements_loop (S fuel) c N st
      (opened (le 4 (bl_type b) ++ le 4 (zlen (bl_recs b)) ++ le 4 (bl_ntags b) ++ rest)) =
    bind (iterM (Z.to_nat (Z.min (zlen (bl_recs b)) (N - vb_done st + 1)))
            (v22_element_binary c (bl_type b) (bl_ntags b) N) (None, st1))
      (fun r => v22_elements_loop fuel c N (snd r)) (opened rest).
Proof.
  intros c N b fuel st B1 B3 B4 [M1 M2] HN.
  destruct (gmsh_nodes (bl_type b)) as [n|] eqn:EN; [|congruence].
  destruct (gmsh_nodes_spec _ _ EN) as (E & En & Et).
  destruct (int_num _ (bl_recs b) B3) as [J1 J2].
  assert (K1 : int_ok (bl_ntags b)) by (unfold int_ok, INT_MIN, INT_MAX in *; lia).
  destruct (fits_resize _ c sz_int 0 (bl_ntags b) (vb_tags st) ltac:(reflexivity) ltac:(lia) M1) as (v1 & E1 & L1).
  destruct (fits_resize _ c sz_int 0 n (vb_ids st) ltac:(reflexivity) ltac:(lia) (M2 n eq_refl)) as (v2 & E2 & L2).
  exists n, v1, v2. split; [reflexivity|]. split; [exact L1|]. split; [exact L2|]. cbv zeta. intros rest Hr.
  cbn [v22_elements_loop]. replace (vb_done st =? N) with false by (symmetry; apply Z.eqb_neq; exact HN).
  assert (N1 : forall x, le 4 x ++ rest <> []) by (intro x; destruct (le 4 x); [exact Hr|discriminate]).
  unfold bind at 1. rewrite (rd_raw_int_opt_RB None (bl_type b)); [| |].
  3:{ intro X. destruct (le 4 (zlen (bl_recs b))) eqn:Q; [|discriminate].
      pose proof (le_length 4 (zlen (bl_recs b))) as QL. rewrite Q in QL. discriminate. }
  2:{ unfold int_ok, INT_MIN, INT_MAX; lia. }
  cbn [app].
  unfold bind at 1. rewrite (rd_raw_int_opt_RB None (zlen (bl_recs b)) J1) by apply N1. cbn [app].
  unfold bind at 1. rewrite (rd_raw_int_opt_RB None (bl_ntags b) K1) by exact Hr. cbn [app].
  unfold bind at 1. rewrite use_ok.
  unfold bind at 1. rewrite to_size_id by (unfold INT_MAX, two64 in *; lia). rewrite (lift_ok _ _ _ _ E1).
  unfold bind at 1. rewrite use_ok.
  unfold bind at 1. rewrite (lift_ok _ _ _ _ E).
  unfold bind at 1. rewrite (lift_ok _ _ _ _ E2).
  unfold bind at 1. rewrite use_ok. cbv zeta. rewrite J2. reflexivity.
Qed.

Lemma concat_records : forall a (r : el_rec) d,
  List.concat (map rec_bytes (a ++ r :: d)) =
  List.concat (map rec_bytes a) ++ rec_bytes r ++ List.concat (map rec_bytes d).
Proof. intros. rewrite map_app, concat_app. reflexivity. Qed.

Lemma rec_bytes_some : forall r, rec_bytes r <> [].
Proof.
  intros r X. apply app_eq_nil in X. destruct X as [X _]. pose proof (le_length 4 (er_id r)) as L.
  rewrite X in L. discriminate.
Qed.

Lemma blocks_over : forall c N bs b fuel st, (List.length bs < fuel)%nat ->
  Forall block22_ok (bs ++ [b]) -> Forall (fun b => Forall rec_ok (bl_recs b)) (bs ++ [b]) ->
  Forall (block_mem c) (bs ++ [b]) ->
  vb_done st + zlen (flat_map bl_recs bs) < N ->
  N < vb_done st + zlen (flat_map bl_recs (bs ++ [b])) ->
  fits c sz_ElementBlock (zlen (vb_blocks st) + N - vb_done st + 1) ->
  TH (v22_elements_loop fuel c N st) (List.concat (map block22_bytes (bs ++ [b]))) (InvalidFormat (str "Inconsistent element count detected!")).
Proof.
  intros c N bs b. induction bs as [|x bs IH]; intros fuel st HF HO HR HM HN1 HN2 HB;
    (destruct fuel as [|fuel]; [cbn [List.length] in HF; lia|]).
  - cbn [app flat_map map List.concat] in *. rewrite app_nil_r in HN2. rewrite zlen_nil in HN1. rewrite app_nil_r.
    inversion HO as [|? ? Hb _]; inversion HR as [|? ? Rb _]; inversion HM as [|? ? Mb _]; subst.
    destruct Hb as [B1 B2 B3 B4]. 
    destruct (block_start c N b fuel st B1 B3 ltac:(lia) Mb ltac:(lia)) as (n & v1 & v2 & EN & L1 & L2 & HS).
    cbv zeta in HS.
    set (st1 := {| vb_tags := v1; vb_ids := v2; vb_min := vb_min st; vb_max := vb_max st;
                   vb_done := vb_done st; vb_blocks := vb_blocks st; vb_pm := vb_pm st |}) in *.
    intros rest Hr. unfold block22_bytes. rewrite <- !app_assoc. 
    set (k := Z.to_nat (N - vb_done st)).
    assert (LK : (k < List.length (bl_recs b))%nat) by (unfold k, zlen in *; lia).
    destruct (nth_error (bl_recs b) k) as [r|] eqn:ER; [|apply nth_error_None in ER; lia].
    destruct (nth_error_split _ _ ER) as (l1 & l2 & EL & LL).
    rewrite HS by (rewrite EL, concat_records, <- !app_assoc; intro X; apply app_eq_nil in X; destruct X as [_ X];
                   apply app_eq_nil in X; destruct X as [X _]; exact (rec_bytes_some r X)).
    replace (Z.to_nat (Z.min (zlen (bl_recs b)) (N - vb_done st + 1))) with (List.length l1 + 1)%nat
      by (rewrite LL; unfold k, zlen in *; lia).
    rewrite EL, concat_records, <- !app_assoc.
    assert (RE : Forall rec_ok l1 /\ rec_ok r).
    { rewrite EL in Rb. apply Forall_app in Rb. destruct Rb as [Q1 Q2]. inversion Q2; subst. auto. }
    assert (TE : Forall (fun r => er_type r = bl_type b /\ zlen (er_tags r) = bl_ntags b) l1 /\
                 er_type r = bl_type b /\ zlen (er_tags r) = bl_ntags b).
    { rewrite EL in B2. apply Forall_app in B2. destruct B2 as [Q1 Q2]. inversion Q2; subst. auto. }
    destruct RE as [RE1 RE2]. destruct TE as (TE1 & TE2 & TE3).
    assert (ZK : zlen l1 = N - vb_done st) by (unfold zlen; rewrite LL; unfold k; lia).
    destruct (elements_loop_b c N (bl_type b) (bl_ntags b) n l1 None st1 RE1 TE1 ltac:(lia) EN L1 L2) as (id1 & HI).
    { cbn [st1 vb_done]. lia. }
    { cbn [st1 vb_blocks]. eapply fits_le; [| |exact HB]; [reflexivity|lia]. }
    set (stl := fold_left vb_after l1 st1) in *.
    assert (SZ : zlen (vb_tags stl) = bl_ntags b /\ zlen (vb_ids stl) = n).
    { unfold stl. revert TE1 RE1 EN L1 L2. clear. intros T R EN. unfold st1 in *. clearbody st1. clear st1. revert v1 v2 st.
      assert (G : forall l s, Forall (fun r => er_type r = bl_type b /\ zlen (er_tags r) = bl_ntags b) l -> Forall rec_ok l ->
                zlen (vb_tags s) = bl_ntags b -> zlen (vb_ids s) = n ->
                zlen (vb_tags (fold_left vb_after l s)) = bl_ntags b /\ zlen (vb_ids (fold_left vb_after l s)) = n).
      { induction l as [|r l IH]; intros s HT HR A B; [auto|]. inversion HT as [|? ? [T1 T2] HT']; inversion HR as [|? ? R1 HR']; subst.
        cbn [fold_left]. apply IH; try assumption. cbn [vb_after vb_ids].
        pose proof (ro_type r R1) as Q. rewrite T1, EN in Q. injection Q as Q. symmetry. exact Q. }
      intros v1 v2 st L1 L2. apply G; assumption. }
    destruct SZ as [SZ1 SZ2].
    unfold bind. rewrite iterM_app. unfold bind at 1.
    rewrite HI by (intro X; apply app_eq_nil in X; destruct X as [X _]; exact (rec_bytes_some r X)).
    cbn [app iterM]. rewrite TH_fails with (t := rec_bytes r) (e := InvalidFormat (str "Inconsistent element count detected!")).
    + reflexivity.
    + intros rest' Hr'. unfold bind. rewrite <- TE2.
      rewrite (element_over c N id1 stl r (bl_ntags b) RE2 TE3 ltac:(lia) SZ1); [reflexivity| | | |exact Hr'].
      * rewrite SZ2. pose proof (ro_type r RE2) as Q. rewrite TE2, EN in Q. injection Q as Q. exact Q.
      * unfold stl. rewrite vb_done_after. cbn [st1 vb_done]. lia.
      * unfold stl. rewrite vb_blocks_after, zlen_app, zlen_map. cbn [st1 vb_blocks].
        eapply fits_le; [| |exact HB]; [reflexivity|lia].
    + destruct (List.concat (map rec_bytes l2)); [exact Hr|discriminate].
  - cbn [app flat_map map List.concat] in *. rewrite zlen_app in HN1, HN2.
    inversion HO as [|? ? Hx HO']; inversion HR as [|? ? Rx HR']; inversion HM as [|? ? Mx HM']; subst.
    pose proof (zlen_nonneg _ (bl_recs x)) as P1. pose proof (zlen_nonneg _ (flat_map bl_recs bs)) as P2.
    destruct Hx as [B1 B2 B3 B4].
    destruct (block_start c N x fuel st B1 B3 ltac:(lia) Mx ltac:(lia)) as (n & v1 & v2 & EN & L1 & L2 & HS).
    cbv zeta in HS.
    set (st1 := {| vb_tags := v1; vb_ids := v2; vb_min := vb_min st; vb_max := vb_max st;
                   vb_done := vb_done st; vb_blocks := vb_blocks st; vb_pm := vb_pm st |}) in *.
    intros rest Hr. unfold block22_bytes at 1. rewrite <- !app_assoc.
    assert (NE : List.concat (map block22_bytes (bs ++ [b])) ++ rest <> [])
      by (intro X; apply app_eq_nil in X; destruct X; contradiction).
    rewrite HS by (intro X; apply app_eq_nil in X; destruct X as [_ X]; contradiction).
    replace (Z.to_nat (Z.min (zlen (bl_recs x)) (N - vb_done st + 1))) with (List.length (bl_recs x))
      by (unfold zlen in *; lia).
    destruct (elements_loop_b c N (bl_type x) (bl_ntags x) n (bl_recs x) None st1 Rx B2 ltac:(lia) EN L1 L2) as (id1 & HI).
    { cbn [st1 vb_done]. lia. }
    { cbn [st1 vb_blocks]. eapply fits_le; [| |exact HB]; [reflexivity|lia]. }
    unfold bind. rewrite HI by exact NE. cbn [app snd].
    apply IH.
    + cbn [List.length] in HF. lia.
    + exact HO'.
    + exact HR'.
    + exact HM'.
    + rewrite vb_done_after. cbn [st1 vb_done]. lia.
    + rewrite vb_done_after. cbn [st1 vb_done]. lia.
    + rewrite vb_blocks_after, vb_done_after, zlen_app, zlen_map. cbn [st1 vb_blocks vb_done].
      eapply fits_le; [| |exact HB]; [reflexivity|lia].
    + exact Hr.
Qed.

Lemma gap_ws : forall d, gap d -> is_ws d = true.
Proof. intros d [<-|[<-|[<-|[<-|[]]]]]; reflexivity. Qed.

Lemma eat1_gap : forall d, gap d -> EX (op eat1) [d] tt [].
Proof.
  intros d Hd rest Hr. unfold op, eat1. cbn [app]. unfold peek at 1, sentry_noskip.
  cbn [good opened eofb failb IStream.rest negb andb]. rewrite (proj1 (gap_eaten d) Hd).
  unfold get_char, sentry_noskip. cbn [good opened eofb failb IStream.rest negb andb].
  unfold peek, sentry_noskip, good. cbn [with_rest opened eofb failb IStream.rest negb andb].
  destruct rest as [|c t]; [congruence|]. reflexivity.
Qed.

Lemma size_word_EX : forall N n w d old, size_word N n -> ws w -> is_ws d = true ->
  EX (op (rd_size old)) (w ++ n ++ [d]) N [d].
Proof.
  intros N n w d old Hn Hw Hd rest _. unfold op. rewrite <- !app_assoc. cbn [app].
  rewrite (size_word_text N n) by assumption. reflexivity.
Qed.

(** The section. *)
Theorem section_over : forall c b spec w n N d bs bl r,
  meets c b (str "$Elements") spec
    (opened (w ++ n ++ [d] ++ List.concat (map block22_bytes (bs ++ [bl])) ++ r)) ->
  version (mesh_format spec) = str "2.2" -> file_type (mesh_format spec) <> 0 ->
  blank w -> size_word N n -> gap d -> r <> [] ->
  Forall block22_ok (bs ++ [bl]) -> Forall (fun b => Forall rec_ok (bl_recs b)) (bs ++ [bl]) ->
  Forall (fun b => fits c sz_int (bl_ntags b)) (bs ++ [bl]) -> fits c sz_int 125 ->
  fits c sz_ElementBlock (zlen (e_blocks (elements spec)) + N + 1) ->
  zlen (flat_map bl_recs bs) < N < zlen (flat_map bl_recs (bs ++ [bl])) ->
  load_msh c b = Throw (InvalidFormat (str "Inconsistent element count detected!")).
Proof.
  intros c b spec w n N d bs bl r HM Hv Ht Hw Hn Hd Hr HO HR HT H125 HB [HN1 HN2].
  eapply meets_fails; [exact HM|reflexivity|].
  change (dispatch c (str "$Elements") spec) with (load_elements c spec).
  unfold load_elements. rewrite Hv. change (bytes_eqb (str "2.2") v41s) with false.
  change (bytes_eqb (str "2.2") v22s) with true. cbv iota. fold (prior_elements (elements spec)).
  apply Z.eqb_neq in Ht. rewrite Ht.
  pose proof (zlen_nonneg _ (flat_map bl_recs bs)) as P0. pose proof (zlen_nonneg _ (e_blocks (elements spec))) as P1.
  destruct (prior_eblocks (elements spec)) as (Q1 & Q2 & Q3).
  assert (T : TH (v22_load_elements_binary c (prior_elements (elements spec)) (entities spec))
                (w ++ n ++ [d] ++ List.concat (map block22_bytes (bs ++ [bl]))) (InvalidFormat (str "Inconsistent element count detected!"))).
  { unfold v22_load_elements_binary. rewrite (app_assoc n), (app_assoc w).
    eapply TH_bind; [apply (size_word_EX N n w d); [exact Hn|exact Hw|apply gap_ws; exact Hd]|].
    eapply TH_bind0; [intros; apply lift_ok; apply hold_fits|].
    { eapply fits_le; [| |exact HB]; [reflexivity|lia]. }
    eapply TH_bind; [apply eat1_gap; exact Hd|]. cbn [app].
    apply TH_fails. intros rest Hrest. cbn [IStream.rest opened].
    apply blocks_over; try assumption; cbn [vb_done vb_blocks]; try lia.
    - rewrite map_app, concat_app, !app_length. pose proof (blocks_length bs). lia.
    - rewrite Forall_forall in *. intros x Hx. split; [exact (HT x Hx)|]. intros m Hm.
      destruct (gmsh_nodes_spec _ _ Hm) as (_ & Hn1 & _). eapply fits_le; [| |exact H125]; [reflexivity|lia].
    - rewrite Q1. eapply fits_le; [| |exact HB]; [reflexivity|lia]. }
  unfold bind. rewrite !app_assoc. rewrite !app_assoc in T.
  rewrite (T r Hr). reflexivity.
Qed.

Theorem section_exact : forall c b spec w n N d r spec' s', sections_22 c b ->
  meets c b (str "$Elements") spec (opened (w ++ n ++ d :: r)) ->
  file_type (mesh_format spec) <> 0 -> blank w -> size_word N n -> is_ws d = true ->
  dispatch c (str "$Elements") spec (opened (w ++ n ++ d :: r)) = Ok (spec', s') ->
  e_num_elements (elements spec') = N /\
  zlen (mesh_elements (elements spec')) = zlen (mesh_elements (elements spec)) + N.
Proof.
  intros c b spec w n N d r spec' s' H22 HM Ht Hw HN Hd ED.
  assert (HI : inv22 c spec).
  { destruct HM as (s0 & R & _). exact (inv22_reached c b H22 _ R). }
  assert (Hv := H22 _ _ _ HM (or_intror eq_refl)).
  change (dispatch c (str "$Elements") spec) with (load_elements c spec) in ED.
  destruct (tri_post _ _ _ (load_elements_22 any_ub c spec I I Hv (iv_num_elements c spec HI)) _ _ _ ED)
    as (p & -> & recs & [A1 (ebs & A2 & A3 & A4 & A5 & A6) _] & NU & EN).
  destruct (prior_eblocks (elements spec)) as (P1 & _). rewrite P1 in A2.
  cbn [set_entities set_elements elements].
  apply Z.eqb_neq in Ht. rewrite Ht in NU. destruct NU as (_ & NU & _).
  assert (E : e_num_elements (fst p) = N).
  { unfold load_elements in ED. rewrite Hv in ED. change (bytes_eqb (str "2.2") v41s) with false in ED.
    change (bytes_eqb (str "2.2") v22s) with true in ED. cbv iota in ED. rewrite Ht in ED.
    fold (prior_elements (elements spec)) in ED.
    unfold v22_load_elements_binary in ED. unfold bind in ED at 1. unfold bind in ED at 1. unfold op in ED at 1.
    rewrite (size_word_text N n) in ED by assumption.
    unfold bind in ED. destruct (lift _ _) as [[[] s1]| | | |]; try discriminate.
    destruct (op eat1 s1) as [[[] s2]| | | |]; try discriminate.
    destruct (v22_elements_loop _ _ _ _ _) as [[st s3]| | | |]; try discriminate.
    unfold ret in ED. injection ED as ED _.     rewrite <- ED. reflexivity. }
  split; [exact E|].
  rewrite NU in E. unfold mesh_elements. rewrite A2, flat_map_app, A6, zlen_app, zlen_map, E. reflexivity.
Qed.
