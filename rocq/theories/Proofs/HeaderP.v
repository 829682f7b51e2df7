(** The $MeshFormat gate, $Entities in 2.2 files, and file types other than 0 and 1. *)

From Verif Require Import Model.Save Spec.Words Spec.Steps Proofs.BytesP Proofs.RtBase
  Proofs.Fuel Proofs.Reach Proofs.TextP.

Ltac Zify.zify_post_hook ::= idtac.

Lemma take_token_end : forall t r, Forall (fun b => is_ws b = false) t -> ends_word r ->
  take_token (t ++ r) = (t, r).
Proof.
  intros t r Ht Hr. destruct r as [|c r]; [|apply take_token_app; assumption].
  rewrite app_nil_r. induction Ht as [|x t Hx Ht IH]; [reflexivity|].
  cbn [take_token]. rewrite Hx, IH. reflexivity.
Qed.

Lemma rd_token_text : forall old w t r, ws w -> word t -> ends_word r ->
  rd_token old (opened (w ++ t ++ r)) = (t, at_end r (opened r)).
Proof.
  intros old w t r Hw [Hn Ht] Hr. destruct t as [|c t]; [congruence|].
  inversion Ht as [|? ? Hc Ht']; subst. unfold rd_token. cbn [app].
  rewrite sentry_ws by assumption. cbn [opened IStream.rest].
  change (c :: t ++ r) with ((c :: t) ++ r). rewrite take_token_end by assumption.
  destruct r; reflexivity.
Qed.

Lemma at_end_cons : forall c r s, at_end (c :: r) s = with_rest (c :: r) s.
Proof. reflexivity. Qed.

Lemma extract_int_end : forall z r, int_ok z ->
  match r with [] => True | c :: _ => digit_of c = None end ->
  extract_int (show_Z z ++ r) = (z, false, r).
Proof.
  intros z b Hz Hb. unfold int_ok in Hz. unfold show_Z. destruct (z <? 0) eqn:E.
  - apply Z.ltb_lt in E. unfold extract_int. cbn [app take_sign]. unfold show_nonneg.
    rewrite take_digits_app by (try apply dec_digits_digit; auto; lia).
    destruct (show_nonneg_cons (-z)) as (d & ds & Ed & _ & _); [lia|]. rewrite Ed. rewrite <- Ed.
    rewrite dec_digits_val by lia.
    replace (- - z) with z by lia.
    replace (z <? INT_MIN) with false by (symmetry; apply Z.ltb_ge; lia).
    replace (INT_MAX <? z) with false by (symmetry; apply Z.ltb_ge; lia). reflexivity.
  - apply Z.ltb_ge in E. unfold show_nonneg.
    destruct (show_nonneg_cons z) as (d & ds & Ed & Hd & Hds); [lia|].
    unfold extract_int. rewrite Ed. cbn [map app].
    rewrite take_sign_digit by exact Hd.
    change (digit_chr d :: map digit_chr ds ++ b) with (map digit_chr (d :: ds) ++ b).
    rewrite <- Ed.
    rewrite take_digits_app by (try apply dec_digits_digit; auto; lia).
    rewrite Ed. rewrite <- Ed. rewrite dec_digits_val by lia.
    replace (z <? INT_MIN) with false by (symmetry; apply Z.ltb_ge; lia).
    replace (INT_MAX <? z) with false by (symmetry; apply Z.ltb_ge; lia). reflexivity.
Qed.

Lemma show_Z_cons : forall z, exists c t, show_Z z = c :: t /\ is_ws c = false.
Proof.
  intro z. unfold show_Z. destruct (z <? 0) eqn:E; [do 2 eexists; split; reflexivity|].
  apply Z.ltb_ge in E. unfold show_nonneg.
  destruct (show_nonneg_cons z) as (d & ds & Ed & Hd & Hds); [lia|]. rewrite Ed. cbn [map].
  do 2 eexists. split; [reflexivity|apply digit_not_ws].
Qed.

Lemma rd_int_end : forall z old w r, int_ok z -> ws w ->
  match r with [] => True | c :: _ => digit_of c = None end ->
  rd_int old (opened (w ++ show_Z z ++ r)) = (z, at_end r (opened r)).
Proof.
  intros z old w r Hz Hw Hr. unfold rd_int, rd_num.
  destruct (show_Z_cons z) as (c & t & E & Hc). rewrite E. cbn [app]. rewrite sentry_ws by assumption.
  cbn [opened IStream.rest]. change (c :: t ++ r) with ((c :: t) ++ r). rewrite <- E.
  rewrite extract_int_end by assumption. destruct r; reflexivity.
Qed.

(** ** Versions *)

Lemma header_version : forall c b spec w v r,
  meets c b (str "$MeshFormat") spec (opened (w ++ v ++ r)) -> ws w -> word v -> ends_word r ->
  v <> str "2.2" -> v <> str "4.1" ->
  load_msh c b = Throw (UnsupportedFeature (str "Unsupported MSH version: " ++ v)).
Proof.
  intros c b spec w v r HM Hw Hv Hr N1 N2. eapply meets_fails; [exact HM|reflexivity|].
  change (dispatch c (str "$MeshFormat") spec) with (load_mesh_format spec).
  unfold load_mesh_format, bind at 1, op. rewrite rd_token_text by assumption.
  apply bytes_eqb_neq in N1, N2. unfold v22s, v41s. rewrite N1, N2. cbn [negb andb]. reflexivity.
Qed.

(** ** The endianness marker *)

Definition eaten (b : byte) : Prop := is_eaten (Some b) = true.

Lemma eat_all_loop_run : forall w f x r, Forall eaten w ->
  match r with [] => True | y :: _ => is_eaten (Some y) = false end ->
  (List.length w < f)%nat -> x :: w ++ r <> [] -> is_eaten (Some x) = true ->
  eat_all_loop f (Some x) (opened (x :: w ++ r)) = at_end r (opened r).
Proof.
  induction w as [|y w IH]; intros f x r Hw Hr L _ Hx; (destruct f as [|f]; [cbn in L; lia|]);
    cbn [eat_all_loop]; rewrite Hx.
  - change (get_char (opened (x :: [] ++ r))) with (opened r).
    destruct r as [|z r]; [destruct f; reflexivity|].
    cbn [peek sentry_noskip good opened eofb failb IStream.rest negb andb].
    destruct f as [|f]; [reflexivity|]. cbn [eat_all_loop]. rewrite Hr. reflexivity.
  - change (get_char (opened (x :: (y :: w) ++ r))) with (opened (y :: w ++ r)).
    cbn [peek sentry_noskip good opened eofb failb IStream.rest negb andb].
    change {| IStream.rest := ?b; eofb := false; failb := false |} with (opened b).
    inversion Hw; subst. apply IH; auto; [cbn in L; lia|discriminate].
Qed.

Lemma eat_all_run : forall w r, Forall eaten w ->
  match r with [] => True | y :: _ => is_eaten (Some y) = false end ->
  eat_all (opened (w ++ r)) = (tt, at_end r (opened r)).
Proof.
  intros w r Hw Hr. unfold eat_all. destruct w as [|x w].
  - cbn [app]. destruct r as [|y r]; [reflexivity|].
    cbn [peek sentry_noskip good opened eofb failb IStream.rest negb andb].
    cbn [eat_all_loop]. rewrite Hr. reflexivity.
  - cbn [app peek sentry_noskip good opened eofb failb IStream.rest negb andb].
    inversion Hw; subst.
    change {| IStream.rest := ?b; eofb := false; failb := false |} with (opened b).
    rewrite eat_all_loop_run; auto; [|discriminate]. cbn [List.length]. rewrite app_length. lia.
Qed.

Lemma unle_firstn4 : forall r, 0 <= unle (firstn 4 r) < two32.
Proof.
  intro r. pose proof (unle_range (firstn 4 r)) as H. split; [lia|].
  eapply Z.lt_le_trans; [apply H|]. change two32 with (256 ^ 4).
  apply Z.pow_le_mono_r; [lia|]. unfold zlen. pose proof (firstn_le_length 4 r). lia.
Qed.

Lemma unle_zeros : forall b k, unle (b ++ repeat x00 k) = unle b.
Proof.
  induction b as [|x b IH]; intro k.
  - cbn [app]. induction k as [|k IHk]; [reflexivity|]. cbn [repeat unle]. rewrite IHk. reflexivity.
  - cbn [app unle]. rewrite IH. reflexivity.
Qed.

Lemma rd_raw_int_zero : forall r, fst (rd_raw_int 0 (opened r)) = to_int (unle (firstn 4 r)).
Proof.
  intro r. unfold rd_raw_int, rd_raw. cbn [sentry_noskip good opened eofb failb negb andb IStream.rest].
  change (List.length (le 4 0)) with 4%nat.
  destruct (List.length (firstn 4 r) <? 4)%nat eqn:E; cbn [fst]; [|reflexivity].
  change (le 4 0) with (repeat x00 4).
  assert (S : skipn (List.length (firstn 4 r)) (repeat x00 4) = repeat x00 (4 - List.length (firstn 4 r))).
  { apply Nat.ltb_lt in E. destruct (List.length (firstn 4 r)) as [|[|[|[|k]]]]; try reflexivity. lia. }
  rewrite S, unle_zeros. reflexivity.
Qed.

Lemma gap_eaten : forall b, gap b <-> is_eaten (Some b) = true.
Proof.
  intro b. unfold gap. split.
  - intros [<-|[<-|[<-|[<-|[]]]]]; reflexivity.
  - intro H. destruct b; try discriminate H; cbn [In]; tauto.
Qed.

Lemma meets_unsupported : forall c b name spec s, meets c b name spec s -> is_section name = true ->
  (exists m, failed (dispatch c name spec s) (Throw (UnsupportedFeature m) : outcome MshSpec)) ->
  exists m, load_msh c b = Throw (UnsupportedFeature m).
Proof. intros c b name spec s H IS (m & F). exists m. eapply meets_fails; eassumption. Qed.

Lemma header_marker_eaten : forall c b spec v w1 w2 w3 w4 t d r,
  meets c b (str "$MeshFormat") spec
    (opened (w1 ++ v ++ w2 ++ show_Z t ++ w3 ++ show_Z d ++ w4 ++ r)) ->
  v = str "2.2" \/ v = str "4.1" ->
  ws w1 -> ws w2 -> w2 <> [] -> ws w3 -> w3 <> [] -> int_ok t -> int_ok d ->
  t <> 0 -> Forall eaten w4 ->
  match w4 ++ r with [] => True | x :: _ => digit_of x = None end ->
  match r with [] => True | x :: _ => is_eaten (Some x) = false end ->
  unle (firstn 4 r) <> 1 -> exists m, load_msh c b = Throw (UnsupportedFeature m).
Proof.
  intros c b spec v w1 w2 w3 w4 t d r HM Hv W1 W2 N2 W3 N3 Ht Hd Nt W4 Hd4 Hr N1.
  eapply meets_unsupported; [exact HM|reflexivity|].
  change (dispatch c (str "$MeshFormat") spec) with (load_mesh_format spec).
  unfold load_mesh_format, bind at 1, op at 1.
  rewrite rd_token_text;
    [|assumption|destruct Hv as [->| ->]; (split; [discriminate|repeat constructor])
     |destruct w2; [congruence|inversion W2; assumption]].
  replace (negb (bytes_eqb v v22s) && negb (bytes_eqb v v41s)) with false
    by (destruct Hv as [->| ->]; reflexivity). cbn iota.
  destruct w2 as [|x w2]; [congruence|]. cbn [app]. rewrite at_end_cons.
  change (with_rest ?b (opened ?x)) with (opened b).
  unfold bind at 1, op at 1. change (x :: w2 ++ ?y) with ((x :: w2) ++ y).
  rewrite rd_int_end; [|assumption|assumption|destruct w3 as [|y w3]; [congruence|]; apply ws_not_digit; inversion W3; assumption].
  destruct w3 as [|y w3]; [congruence|]. cbn [app]. rewrite at_end_cons.
  change (with_rest ?b (opened ?x)) with (opened b).
  unfold bind at 1, op at 1. change (y :: w3 ++ ?z) with ((y :: w3) ++ z).
  rewrite rd_int_end by assumption.
  destruct (bytes_eqb v v41s && negb (to_size d =? 8)); [eexists; reflexivity|].
  apply Z.eqb_neq in Nt. rewrite Nt. cbn [negb].
  assert (Q : forall s, fst (rd_raw_int 0 s) <> 1 ->
    failed (bind (one <- op (rd_raw_int 0) ;; (if negb (one =? 1) then throw (endianness_unsupported v) else ret tt))
      (fun _ => ret (set_format {| version := v; file_type := t; data_size := d |} spec)) s)
      (Throw (endianness_unsupported v) : outcome MshSpec)).
  { intros s H. unfold bind, op. destruct (rd_raw_int 0 s) as [one s']. cbn [fst] in H.
    apply Z.eqb_neq in H. rewrite H. reflexivity. }
  unfold bind at 1. unfold bind at 1. unfold op at 1.
  destruct (w4 ++ r) as [|z q] eqn:E4.
  - apply app_eq_nil in E4. destruct E4 as [-> ->].
    cbn. eexists. reflexivity.
  - rewrite at_end_cons. change (with_rest ?b (opened ?x)) with (opened b). rewrite <- E4.
    rewrite eat_all_run by assumption.
    specialize (Q (at_end r (opened r))). unfold bind at 1 in Q. unfold bind. eexists. apply Q.
    destruct r as [|z' r']; [cbn; discriminate|]. rewrite at_end_cons.
    change (with_rest ?b (opened ?x)) with (opened b). rewrite rd_raw_int_zero.
    pose proof (unle_firstn4 (z' :: r')) as B. unfold to_int. rewrite Z.mod_small by exact B.
    destruct (_ <? _); [exact N1|]. unfold two32 in *. lia.
Qed.

(** ** $Entities in a 2.2 file *)

Lemma header_marker : forall c b spec v w1 w2 w3 w4 t d r,
  meets c b (str "$MeshFormat") spec
    (opened (w1 ++ v ++ w2 ++ show_Z t ++ w3 ++ show_Z d ++ w4 ++ r)) ->
  v = str "2.2" \/ v = str "4.1" ->
  blank w1 -> blank w2 -> w2 <> [] -> blank w3 -> w3 <> [] -> int_ok t -> int_ok d ->
  t <> 0 -> Forall gap w4 -> ends_number (w4 ++ r) ->
  (forall x r', r = x :: r' -> ~ gap x) -> unle (firstn 4 r) <> 1 ->
  exists m, load_msh c b = Throw (UnsupportedFeature m).
Proof.
  intros c b spec v w1 w2 w3 w4 t d r HM Hv W1 W2 N2 W3 N3 Ht Hd Nt W4 Hd4 Hr N1.
  eapply header_marker_eaten; try eassumption.
  - eapply Forall_impl; [|exact W4]. intros x Hx. apply gap_eaten. exact Hx.
  - destruct r as [|x r]; [exact I|]. specialize (Hr x r eq_refl). rewrite gap_eaten in Hr.
    destruct (is_eaten (Some x)); [congruence|reflexivity].
Qed.

Lemma entities22 : forall c b spec s, meets c b (str "$Entities") spec s ->
  version (mesh_format spec) = str "2.2" -> 
  load_msh c b = Throw (InvalidFormat (str "$Entities section not supported by MSH version 2.2")).
Proof.
  intros c b spec s HM Hv. eapply meets_fails; [exact HM|reflexivity|].
  change (dispatch c (str "$Entities") spec s) with (load_entities c spec s).
  unfold load_entities. rewrite Hv. reflexivity.
Qed.

(** ** Saved with an odd file type *)

Lemma odd_type : forall c s b r, save_msh c s = (b, r) ->
  word (version (mesh_format s)) -> int_ok (file_type (mesh_format s)) ->
  int_ok (data_size (mesh_format s)) ->
  file_type (mesh_format s) <> 0 -> file_type (mesh_format s) <> 1 ->
  forall c', exists m, load_msh c' b = Throw (UnsupportedFeature m).
Proof.
  intros c s b r E Hv Ht Hd N0 N1 c'. set (f := mesh_format s) in *.
  assert (X : exists q, b = str "$MeshFormat" ++ endl ++ version f ++ sp ++ show_Z (file_type f) ++ sp ++
                show_Z (data_size f) ++ endl ++ str "$EndMeshFormat" ++ q).
  { unfold save_msh in E.
    match type of E with save_mesh_format s +++ ?X = _ => destruct X as [y z] end.
    unfold save_mesh_format in E. fold f in E. apply Z.eqb_neq in N1. rewrite N1 in E.
    unfold wseq, out, wret in E. cbn [fst snd] in E. apply (f_equal fst) in E.
    cbn [fst] in E. subst b. exists (endl ++ y). rewrite <- ?app_assoc. reflexivity. }
  destruct X as (q & ->).
  assert (HM : meets c' (str "$MeshFormat" ++ endl ++ version f ++ sp ++ show_Z (file_type f) ++ sp ++
                show_Z (data_size f) ++ endl ++ str "$EndMeshFormat" ++ q) (str "$MeshFormat") spec_default
                (opened (endl ++ version f ++ sp ++ show_Z (file_type f) ++ sp ++
                show_Z (data_size f) ++ endl ++ str "$EndMeshFormat" ++ q))).
  { apply meets_first.
    change (str "$MeshFormat" ++ ?x) with ([] ++ str "$MeshFormat" ++ x) at 1.
    rewrite rd_token_text; [reflexivity|constructor|split; [discriminate|repeat constructor]|reflexivity]. }
  destruct (bytes_eqb (version f) (str "2.2")) eqn:E2;
    [|destruct (bytes_eqb (version f) (str "4.1")) eqn:E4].
  1,2: eapply header_marker with (w1 := endl) (w2 := sp) (w3 := sp) (w4 := endl) (v := version f)
         (t := file_type f) (d := data_size f) (r := str "$EndMeshFormat" ++ q);
       [exact HM|..]; try assumption; try apply ws_endl; try apply ws_sp; try discriminate;
       try (constructor; [right; right; left; reflexivity|constructor]);
       try (intros x r' Ex; cbn in Ex; injection Ex as <- _; unfold gap; cbn [In]; intuition discriminate);
       try reflexivity.
  - left. apply bytes_eqb_eq. exact E2.
  - right. apply bytes_eqb_eq. exact E4.
  - apply bytes_eqb_neq in E2, E4.
    eexists. apply (header_version c' _ _ _ _ _ HM); auto; [apply ws_endl|reflexivity].
Qed.
