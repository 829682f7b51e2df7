(** Short files that load as large meshes. *)

From Verif Require Import Model.LoadMsh Spec.Weight Spec.Steps Spec.Cut Spec.Files22 Proofs.BytesP Proofs.RtBase Proofs.RtStep Proofs.Fuel Proofs.Reach Proofs.SkipP
  Proofs.File22P Proofs.LoadedP Proofs.Compose Proofs.CutP.

Ltac Zify.zify_post_hook ::= idtac.

Definition short_header (ascii : bool) : bytes :=
  str "$MeshFormat" ++ [x0a] ++ (if ascii then str "4.1 0 8" ++ [x0a] else str "4.1 1 8" ++ [x0a; x01; x00; x00; x00; x0a]) ++
  str "$EndMeshFormat" ++ [x0a].

Definition headed (ascii : bool) : MshSpec :=
  set_format {| version := str "4.1"; file_type := if ascii then 0 else 1; data_size := 8 |} spec_default.

Lemma header_complete : forall c ascii, complete c (short_header ascii) (headed ascii).
Proof.
  intros c ascii rest. exists [x0a]. split; [repeat constructor|]. exists 3%nat. unfold start.
  destruct ascii.
  - econstructor; [eapply step_section; [reflexivity|reflexivity|reflexivity|vm_compute; reflexivity]|].
    econstructor; [eapply step_skip; [reflexivity|discriminate|reflexivity]|].
    econstructor; [apply step_found; right; reflexivity|]. apply steps_0.
  - econstructor; [eapply step_section; [reflexivity|reflexivity|reflexivity|vm_compute; reflexivity]|].
    econstructor; [eapply step_skip; [reflexivity|discriminate|reflexivity]|].
    econstructor; [apply step_found; right; reflexivity|]. apply steps_0.
Qed.

(** A section that uses up the file is the last one. *)
Lemma dead_end : forall c b name spec s spec', meets c b name spec s -> is_section name = true ->
  dispatch c name spec s = Ok (spec', dead) -> load_msh c b = post_process c spec'.
Proof.
  intros c b name spec s spec' (s0 & R & E & ET) IS ED. apply ends_load. exists dead. split; [|reflexivity].
  eapply reached_step; [eapply reached_step; [exact R|]|].
  - eapply step_section; eassumption.
  - apply step_found. left. reflexivity.
Qed.

(** ** Nodes, in release builds *)

Definition short_nodes (n : Z) : bytes := short_header false ++ str "$Nodes" ++ [x0a] ++
  le 8 1 ++ le 8 n ++ le 8 1 ++ le 8 n ++ le 4 0 ++ le 4 1 ++ le 4 0 ++ le 8 n.

Definition big_nodes (n : Z) : MshSpec :=
  set_nodes {| n_num_blocks := 1; n_num_nodes := n; n_min := 1; n_max := n;
    n_blocks := [{| nb_dim := 0; nb_tag := 1; nb_parametric := 0; nb_num := n;
                    nb_tags := repeat 0 (Z.to_nat n); nb_data := repeat 0 (Z.to_nat (n * 3)) |}] |} (headed false).

Lemma cut_zeros : forall n, cut_words 0 (repeat 0 n) = repeat 0 n.
Proof. induction n as [|n IH]; [reflexivity|]. cbn [repeat cut_words]. change (0 - 8)%nat with O. rewrite IH. reflexivity. Qed.

Lemma zeros_size : forall n, Forall size_ok (repeat 0 n).
Proof. intro n. apply Forall_forall. intros x H. apply repeat_spec in H. subst. split; [lia|reflexivity]. Qed.

Lemma into_end : forall m n, (0 < n)%nat -> m = 8 * zlen (repeat 0 n) -> rd_raw_into 8 m rd_raw_size (repeat 0 n) (opened []) = Ok (repeat 0 n, dead).
Proof.
  intros m n P E. pose proof (into_cut m (repeat 0 n) 0 (zeros_size n)) as H. rewrite repeat_length in H. rewrite cut_zeros in H.
  apply H; [exact E|lia].
Qed.

Lemma bind_ok : forall A B (m : M A) (f : A -> M B) s a s', m s = Ok (a, s') -> bind m f s = f a s'.
Proof. intros A B m f s a s' E. unfold bind. rewrite E. reflexivity. Qed.

Lemma block_big : forall c n, ndebug c = true -> 0 < n -> fits c 8 n -> fits c 8 (n * 3) ->
  v41_node_block_binary c nb_default (opened (le 4 0 ++ le 4 1 ++ le 4 0 ++ le 8 n)) =
  Ok ({| nb_dim := 0; nb_tag := 1; nb_parametric := 0; nb_num := n;
         nb_tags := repeat 0 (Z.to_nat n); nb_data := repeat 0 (Z.to_nat (n * 3)) |}, dead).
Proof.
  intros c n R P F1 F2. destruct (counts c n 3 ltac:(lia) ltac:(lia) F1 F2) as (C1 & C2 & C3).
  assert (Hn : size_ok n). { split; [lia|]. destruct F1 as [F1 _]. change (PTRDIFF_MAX / 8) with 1152921504606846975 in F1. unfold two64. lia. }
  rewrite block_eq.
  rewrite (bind_ok _ _ _ _ _ _ _ (ZB_int 0 0 ltac:(split; discriminate) _)).
  rewrite (bind_ok _ _ _ _ _ _ _ (ZB_int 0 1 ltac:(split; discriminate) _)).
  rewrite (bind_ok _ _ _ _ _ _ _ (ZB_int 0 0 ltac:(split; discriminate) _)).
  rewrite <- (app_nil_r (le 8 n)).
  rewrite (bind_ok _ _ _ _ _ _ _ (ZB_size 0 n Hn _)).
  unfold block_tail. change sz_size with 8 in *. change sz_double with 8 in *.
  rewrite (bind_ok _ _ (assert_good c) _ (opened []) tt (opened [])) by (unfold assert_good, massert; rewrite R; reflexivity).
  unfold bind at 1, lift at 1. rewrite resize_zeros by (assumption || lia).
  unfold bind at 1. rewrite into_end by (exact C1 || lia).
  rewrite (bind_ok _ _ _ _ _ _ _ (release_dead c R)).
  unfold bind at 1, lift at 1. change (entries_per_node 0 0) with (Ok 3).
  unfold bind at 1, lift at 1. rewrite C2, resize_zeros by (assumption || lia).
  unfold bind at 1. change rd_raw_double with rd_raw_size. rewrite (into_dead _ _ C3).
  rewrite (bind_ok _ _ _ _ _ _ _ (release_dead c R)). reflexivity.
Qed.

Lemma name_read : forall name u body, token name -> ws u -> body <> [] ->
  rd_token [] (opened (u ++ name ++ [x0a] ++ body)) = (name, opened (x0a :: body)).
Proof.
  intros name u body T Hu N. pose proof (rd_token_EX [] name u [x0a] T Hu) as K.
  assert (W : ws [x0a]) by repeat constructor. specialize (K W ltac:(discriminate) body N). unfold op in K.
  rewrite <- !app_assoc in K. injection K as K. exact K.
Qed.

Lemma resize_one : forall A c sz (d : A), sz <= mem c -> (PTRDIFF_MAX / sz <? 1) = false -> resize c sz d 1 [] = Ok [d].
Proof.
  intros A c sz d F H. unfold resize, can_hold. rewrite H. change (1 <=? zlen (@nil A)) with false. cbv iota.
  replace (mem c <? 1 * sz) with false by (symmetry; apply Z.ltb_ge; lia). reflexivity.
Qed.

Lemma nodes_big : forall c n, ndebug c = true -> 0 < n -> fits c 8 (n * 3) -> sz_NodeBlock <= mem c -> load_msh c (short_nodes n) = Ok (big_nodes n).
Proof.
  intros c n R P F2 F0. assert (F1 : fits c 8 n) by (destruct F2; split; lia).
  assert (Hn : size_ok n). { split; [lia|]. destruct F1 as [F1 _]. change (PTRDIFF_MAX / 8) with 1152921504606846975 in F1. unfold two64. lia. }
  assert (H1 : size_ok 1) by (split; [lia|reflexivity]).
  set (body := le 8 1 ++ le 8 n ++ le 8 1 ++ le 8 n ++ le 4 0 ++ le 4 1 ++ le 4 0 ++ le 8 n).
  rewrite (dead_end c (short_nodes n) (str "$Nodes") (headed false) (opened (x0a :: body)) (big_nodes n)); [reflexivity| |reflexivity|].
  - apply meets_after; [apply header_complete|]. fold body. intros u Hu. apply name_read; [split; [discriminate|repeat constructor]|exact Hu|discriminate].
  - change (dispatch c (str "$Nodes") (headed false)) with (load_nodes c (headed false)).
    unfold load_nodes. change (bytes_eqb (version (mesh_format (headed false))) v41s) with true.
    change (file_type (mesh_format (headed false)) =? 0) with false. cbv zeta iota. change (n_blocks (nodes (headed false))) with (@nil NodeBlock). cbv iota.
    unfold bind at 1. unfold v41_load_nodes_binary. prj.
    rewrite (bind_ok _ _ _ _ _ tt (opened body)) by reflexivity. unfold body.
    rewrite (bind_ok _ _ _ _ _ _ _ (ZB_size _ 1 H1 _)). rewrite (bind_ok _ _ _ _ _ _ _ (ZB_size _ n Hn _)).
    rewrite (bind_ok _ _ _ _ _ _ _ (ZB_size _ 1 H1 _)). rewrite (bind_ok _ _ _ _ _ _ _ (ZB_size _ n Hn _)).
    set (s0 := opened _).
    rewrite (bind_ok _ _ (assert_good c) _ s0 tt s0) by (unfold assert_good, massert; rewrite R; reflexivity).
    rewrite (bind_ok _ _ (lift _) _ s0 [nb_default] s0) by (unfold lift; rewrite resize_one by (exact F0 || reflexivity); reflexivity).
    cbn [mapM]. unfold bind. unfold s0. rewrite block_big by assumption. reflexivity.
Qed.

(** ** Curves, in any build with the extension *)

Definition short_curves (n : Z) : bytes := short_header true ++ str "$Curves" ++ [x0a] ++ str "1 1 1 1 " ++ show_Z n ++ str " 0 0 " ++ [x0a].

Definition big_curves (n : Z) : MshSpec :=
  set_curves [{| cv_tag := 1; cv_type := 1; cv_degree := 1; cv_ncp := n; cv_nknots := 0; cv_weights := 0;
                 cv_data := repeat 0 (Z.to_nat (n * 3)) |}] (headed true).

(** A piece of text, then more. *)
Lemma RT_then : forall A B (m : M A) (f : A -> M B) t v u r, RT m t v -> ws u -> r <> [] ->
  exists u', ws u' /\ bind m f (opened (u ++ t ++ r)) = f v (opened (u' ++ r)).
Proof.
  intros A B m f t v u r H Hu N. destruct (H u Hu) as (u' & W & E). exists u'. split; [exact W|].
  apply bind_ok. rewrite app_assoc. apply E. exact N.
Qed.

Lemma double_end : forall o u, ws u -> op (rd_double o) (opened u) = Ok (o, dead).
Proof.
  intros o u H. unfold op, rd_double, rd_num, sentry. cbn [good opened eofb failb negb andb IStream.rest].
  assert (E : skip_ws u = []) by (induction H as [|x u Hx _ IH]; [reflexivity|]; cbn [skip_ws]; rewrite Hx; exact IH).
  rewrite E. reflexivity.
Qed.

Lemma doubles_end : forall n u, (0 < n)%nat -> ws u -> mapM (fun o => op (rd_double o)) (repeat 0 n) (opened u) = Ok (repeat 0 n, dead).
Proof.
  intros [|n] u P H; [lia|]. cbn [repeat mapM]. rewrite (bind_ok _ _ _ _ _ _ _ (double_end 0 u H)).
  rewrite (bind_ok _ _ (mapM _ _) _ _ (repeat 0 n) dead); [reflexivity|apply mapM_dead; reflexivity].
Qed.

Tactic Notation "step_RT" uconstr(L) :=
  match goal with |- bind ?m ?f (opened (?u ++ ?t ++ ?r)) = _ =>
    let N := fresh "N" in let u' := fresh "u" in let W := fresh "W" in let E := fresh "E" in
    assert (N : r <> []) by first [discriminate|destruct (show_Z _); discriminate];
    destruct (RT_then _ _ m f t _ u r L ltac:(first [assumption|repeat constructor]) N) as (u' & W & E); rewrite E; clear E N
  end.

Lemma curves_big : forall c n, nanospline c = true -> 0 < n -> fits c 8 (n * 3) -> sz_Curve <= mem c ->
  load_msh c (short_curves n) = Ok (big_curves n).
Proof.
  intros c n NS P F2 F0.
  assert (Hn : size_ok n). { split; [lia|]. destruct F2 as [F1 _]. change (PTRDIFF_MAX / 8) with 1152921504606846975 in F1. unfold two64. lia. }
  assert (H1 : size_ok 1) by (split; [lia|reflexivity]). assert (Z0 : size_ok 0) by (split; [lia|reflexivity]).
  assert (WS : ws (str " ")) by repeat constructor. assert (NE : str " " <> []) by discriminate.
  set (body := str "1 1 1 1 " ++ show_Z n ++ str " 0 0 " ++ [x0a]).
  rewrite (dead_end c (short_curves n) (str "$Curves") (headed true) (opened (x0a :: body)) (big_curves n)); [reflexivity| |reflexivity|].
  - apply meets_after; [apply header_complete|]. fold body. intros u Hu. apply name_read; [split; [discriminate|repeat constructor]|exact Hu|discriminate].
  - change (dispatch c (str "$Curves") (headed true)) with (load_curves c (headed true)). unfold load_curves. rewrite NS.
    change (x0a :: body) with ([x0a] ++ (show_Z 1 ++ str " ") ++ (show_Z 1 ++ str " ") ++ (show_Z 1 ++ str " ") ++ (show_Z 1 ++ str " ") ++
      show_Z n ++ (str " " ++ (show_Z 0 ++ str " ") ++ (show_Z 0 ++ str " ") ++ [x0a])).
    rewrite (app_assoc (show_Z n)).
    step_RT (rd_size_opt_RT _ _ (str " ") H1 WS NE).
    rewrite (bind_ok _ _ (use (Some 1)) _ _ 1 _ eq_refl).
    set (s1 := opened _). rewrite (bind_ok _ _ (lift _) _ s1 [cv_default] s1) by (unfold lift; rewrite resize_one by (exact F0 || reflexivity); reflexivity).
    assert (K : load_curve c true cv_default s1 = Ok ({| cv_tag := 1; cv_type := 1; cv_degree := 1; cv_ncp := n; cv_nknots := 0; cv_weights := 0;
                 cv_data := repeat 0 (Z.to_nat (n * 3)) |}, dead)).
    { unfold load_curve, s1.
      step_RT (rd_size_RT _ _ (str " ") H1 WS NE).
      step_RT (rd_size_RT _ _ (str " ") H1 WS NE).
      step_RT (rd_size_RT _ _ (str " ") H1 WS NE).
      step_RT (rd_size_RT _ _ (str " ") Hn WS NE).
      step_RT (rd_size_RT _ _ (str " ") Z0 WS NE).
      step_RT (rd_size_RT _ _ (str " ") Z0 WS NE).
      rewrite (bind_ok _ _ (ret tt) _ _ tt _ eq_refl).
      assert (EE : curve_entries n 0 0 = n * 3).
      { unfold curve_entries. cbn [Z.ltb Z.compare]. rewrite Z.add_0_r. destruct F2 as [F1 _]. change (PTRDIFF_MAX / 8) with 1152921504606846975 in F1.
        rewrite !to_size_id; unfold two64; rewrite ?to_size_id; unfold two64; lia. }
      rewrite EE. set (s7 := opened _). change (cv_data cv_default) with (@nil Z). change sz_double with 8.
      rewrite (bind_ok _ _ (lift _) _ s7 (repeat 0 (Z.to_nat (n * 3))) s7) by (unfold lift; rewrite resize_zeros by (exact F2 || lia); reflexivity).
      rewrite (bind_ok _ _ _ _ s7 (repeat 0 (Z.to_nat (n * 3))) dead); [reflexivity|].
      apply doubles_end; [lia|]. apply Forall_app. split; [assumption|repeat constructor]. }
    cbn [mapM]. change (file_type (mesh_format (headed true)) =? 0) with true. unfold bind. rewrite K. reflexivity.
Qed.
