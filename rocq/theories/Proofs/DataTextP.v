(** Headers of data sections laid out in any way. *)

From Verif Require Import Model.LoadMsh Spec.DataText Proofs.BytesP Proofs.RtBase Proofs.RtStep Proofs.Reach Proofs.ElemP Proofs.TriP
  Proofs.TextP Proofs.Text22P Proofs.CountP.

Lemma quoteds_RT : forall names t xs, laid_out (map quoted names) t -> List.length xs = List.length names ->
  RT (mapM (fun o => op (rd_quoted o)) xs) t names.
Proof.
  induction names as [|n names IH]; intros t xs H HL; destruct xs as [|x xs]; try discriminate.
  - inversion H. cbn [mapM]. apply RT_ret.
  - cbn [map] in H. apply laid_cons_inv in H. destruct H as (sep & t' & W & _ & -> & H). cbn [mapM].
    eapply RT_quoted; [exact W|]. eapply RT_last; [apply IH; [exact H|injection HL as HL; exact HL]|]. apply RT_ret.
Qed.

Lemma doubles_RT : forall wds reals, Forall2 denotes wds reals -> forall t xs, laid_out wds t -> List.length xs = List.length reals ->
  RT (mapM (fun o => op (rd_double o)) xs) t reals.
Proof.
  intros wds reals HF. induction HF as [|w x wds reals Hw HF IH]; intros t xs H HL; destruct xs as [|o xs]; try discriminate.
  - inversion H. cbn [mapM]. apply RT_ret.
  - apply laid_cons_inv in H. destruct H as (sep & t' & W & N & -> & H). cbn [mapM].
    eapply RT_dbl; [exact Hw|exact W|exact N|]. eapply RT_last; [apply IH; [exact H|injection HL as HL; exact HL]|]. apply RT_ret.
Qed.

Lemma header_RT : forall c names reals ints t, header_laid_out names reals ints t ->
  fits c sz_string (zlen names) -> fits c sz_double (zlen reals) -> fits c sz_int (zlen ints) -> Forall int_ok ints ->
  RT (load_data_header c) t {| string_tags := names; real_tags := reals; int_tags := ints |}.
Proof.
  intros c names reals ints t (wds & HW & HL) F1 F2 F3 HI.
  apply laid_cons_inv in HL. destruct HL as (s1 & t1 & W1 & N1 & -> & HL).
  apply laid_app_inv in HL. destruct HL as (ta & tb & -> & HA & HL).
  apply laid_cons_inv in HL. destruct HL as (s2 & t2 & W2 & N2 & -> & HL).
  apply laid_app_inv in HL. destruct HL as (tc & td & -> & HC & HL).
  apply laid_cons_inv in HL. destruct HL as (s3 & t3 & W3 & N3 & -> & HL). apply laid_spaced in HL.
  unfold load_data_header.
  eapply RT_size_opt; [eapply fits_size_ok; [|exact F1]; reflexivity|exact W1|exact N1|].
  eapply RT_bind0; [intros; apply use_ok|].
  destruct (fits_resize bytes c sz_string [] (zlen names) []) as (v1 & E1 & L1); [reflexivity|apply zlen_nonneg|exact F1|].
  eapply RT_bind0; [intros; apply lift_ok; exact E1|].
  eapply RT_bind; [apply quoteds_RT; [exact HA|apply zlen_length; exact L1]|].
  eapply RT_size_opt; [eapply fits_size_ok; [|exact F2]; reflexivity|exact W2|exact N2|].
  eapply RT_bind0; [intros; apply use_ok|].
  destruct (fits_resize Z c sz_double 0 (zlen reals) []) as (v2 & E2 & L2); [reflexivity|apply zlen_nonneg|exact F2|].
  eapply RT_bind0; [intros; apply lift_ok; exact E2|].
  eapply RT_bind; [eapply doubles_RT; [exact HW|exact HC|apply zlen_length; exact L2]|].
  eapply RT_size_opt; [eapply fits_size_ok; [|exact F3]; reflexivity|exact W3|exact N3|].
  eapply RT_bind0; [intros; apply use_ok|].
  destruct (fits_resize Z c sz_int 0 (zlen ints) []) as (v3 & E3 & L3); [reflexivity|apply zlen_nonneg|exact F3|].
  eapply RT_bind0; [intros; apply lift_ok; exact E3|].
  eapply RT_last; [apply (mapM_ints _ _ _ HL HI); apply zlen_length; exact L3|].
  eapply RT_bind0; [intros; apply assert_good_ok; assumption|]. apply RT_ret.
Qed.

Lemma short_header : forall c v bin end_ names reals ints t u, ws u -> header_laid_out names reals ints t ->
  fits c sz_string (zlen names) -> fits c sz_double (zlen reals) -> fits c sz_int (zlen ints) -> Forall int_ok ints ->
  zlen ints < 3 -> TH (load_data c v bin end_) (u ++ t) (InvalidFormat (str "Data requires at least 3 int tags.")).
Proof.
  intros c v bin end_ names reals ints t u Hu HL F1 F2 F3 HI H3.
  destruct (header_RT c names reals ints t HL F1 F2 F3 HI u Hu) as (u' & _ & E).
  unfold load_data. rewrite <- (app_nil_r (u ++ t)). eapply TH_bind; [exact E|]. cbn [int_tags].
  destruct ints as [|i0 [|i1 [|i2 more]]]; try (intros r Hr; reflexivity).
  exfalso. rewrite !zlen_cons in H3. pose proof (zlen_nonneg _ more). lia.
Qed.

Theorem short_section : forall c b name spec w names reals ints t r,
  data_section name -> meets c b name spec (opened (w ++ t ++ r)) -> blank w -> r <> [] ->
  header_laid_out names reals ints t ->
  fits c sz_string (zlen names) -> fits c sz_double (zlen reals) -> fits c sz_int (zlen ints) -> Forall int_ok ints ->
  zlen ints < 3 -> load_msh c b = Throw (InvalidFormat (str "Data requires at least 3 int tags.")).
Proof.
  intros c b name spec w names reals ints t r HD HM Hw Hr HL F1 F2 F3 HI H3.
  apply (meets_fails c b name spec _ (Throw (InvalidFormat (str "Data requires at least 3 int tags."))) HM).
  - destruct HD as [->|[->| ->]]; reflexivity.
  - rewrite app_assoc.
    assert (G : forall v bin e, load_data c v bin e (opened ((w ++ t) ++ r)) = Throw (InvalidFormat (str "Data requires at least 3 int tags."))).
    { intros v bin e. eapply short_header; eassumption. }
    destruct HD as [->|[->| ->]];
      [change (dispatch c (str "$NodeData") spec) with (load_node_data c spec); unfold load_node_data
      |change (dispatch c (str "$ElementData") spec) with (load_element_data c spec); unfold load_element_data
      |change (dispatch c (str "$ElementNodeData") spec) with (load_element_node_data c spec); unfold load_element_node_data];
      unfold bind; rewrite G; reflexivity.
Qed.
