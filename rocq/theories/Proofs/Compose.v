(** Putting sections together: a file is a sequence of pieces, each written by
    one writer and consumed by a few rounds of the section loop. *)

From Verif Require Import Model.Save Spec.Consistent Proofs.BytesP Proofs.RtBase
  Proofs.WriteP Spec.Steps Spec.Prefix Spec.Words Spec.Warnings Proofs.Fuel Proofs.Reach.

Ltac Zify.zify_post_hook ::= idtac.

(** Steps that remember what has been read at every loop test on the way and
    which unknown sections were met. *)
Inductive walk (c : cfg) (P : MshSpec -> Prop) : list bytes -> nat -> point -> point -> Prop :=
| walk_0 p : P (read_at p) -> walk c P [] O p p
| walk_S n p q r l l' : P (read_at p) -> step c p q -> walk c P l n q r -> unknown_at p ++ l = l' ->
    walk c P l' (S n) p r.
(** Text [t] takes the loop from [spec] to [spec'], whatever follows, past the
    unknown sections [l]. *)
Definition LOADSw (c : cfg) (P : MshSpec -> Prop) (l : list bytes) (t : bytes) (spec spec' : MshSpec) : Prop :=
  forall u rest, ws u ->
    exists n u', ws u' /\
      walk c P l n (Main spec (opened (u ++ t ++ rest))) (Main spec' (opened (u' ++ rest))).
(** No unknown sections. *)
Definition LOADS_in (c : cfg) (P : MshSpec -> Prop) : bytes -> MshSpec -> MshSpec -> Prop := LOADSw c P [].
Definition LOADS (c : cfg) : bytes -> MshSpec -> MshSpec -> Prop := LOADS_in c (fun _ => True).
(** One section: nothing in between. *)
Definition LOADS1w (c : cfg) (l : list bytes) (t : bytes) (spec spec' : MshSpec) : Prop :=
  LOADSw c (fun s => s = spec \/ s = spec') l t spec spec'.
Definition LOADS1 (c : cfg) : bytes -> MshSpec -> MshSpec -> Prop := LOADS1w c [].

Lemma walk_path : forall c P l n p q, walk c P l n p q -> path c l n p q.
Proof. intros c P l n p q H. induction H; [constructor|]. subst l'. econstructor; eassumption. Qed.
Lemma walk_steps : forall c P l n p q, walk c P l n p q -> steps c n p q.
Proof. intros c P l n p q H. induction H; econstructor; eassumption. Qed.
Lemma walk_trans : forall c P l n p q, walk c P l n p q -> forall l' m r, walk c P l' m q r -> walk c P (l ++ l') (n + m) p r.
Proof.
  intros c P l n p q H. induction H; intros k m r' H'; [exact H'|]. subst l'.
  cbn [Nat.add]. econstructor; [eassumption|eassumption|apply IHwalk; exact H'|]. apply app_assoc.
Qed.
Lemma walk_trans0 : forall c P n p q, walk c P [] n p q -> forall l m r, walk c P l m q r -> walk c P l (n + m) p r.
Proof. intros c P n p q H l m r H'. exact (walk_trans c P [] n p q H l m r H'). Qed.
Lemma walk_imp : forall c (P Q : MshSpec -> Prop), (forall s, P s -> Q s) -> forall l n p q, walk c P l n p q -> walk c Q l n p q.
Proof. intros c P Q I l n p q H. induction H; econstructor; eauto. Qed.
Lemma LOADSw_imp : forall c (P Q : MshSpec -> Prop) l t a b, (forall s, P s -> Q s) -> LOADSw c P l t a b -> LOADSw c Q l t a b.
Proof. intros c P Q l t a b I H u rest Hu. destruct (H u rest Hu) as (n & u' & W & ST). exists n, u'. split; [exact W|eapply walk_imp; eassumption]. Qed.
Lemma LOADSw_app : forall c P l1 l2 t1 t2 a b d, LOADSw c P l1 t1 a b -> LOADSw c P l2 t2 b d -> LOADSw c P (l1 ++ l2) (t1 ++ t2) a d.
Proof.
  intros c P l1 l2 t1 t2 a b d H1 H2 u rest Hu.
  destruct (H1 u (t2 ++ rest) Hu) as (n1 & u1 & W1 & E1).
  destruct (H2 u1 rest W1) as (n2 & u2 & W2 & E2).
  exists (n1 + n2)%nat, u2. split; [exact W2|]. rewrite <- app_assoc. eapply walk_trans; eassumption.
Qed.
Lemma LOADSw_nil : forall c (P : MshSpec -> Prop) a, P a -> LOADSw c P [] [] a a.
Proof. intros c P a H u rest Hu. exists O, u. split; [exact Hu|]. constructor. exact H. Qed.

Lemma LOADS_in_LOADS : forall c P t a b, LOADS_in c P t a b -> LOADS c t a b.
Proof. intros c P t a b. apply LOADSw_imp. intros; exact I. Qed.
Lemma LOADS1_LOADS : forall c t a b, LOADS1 c t a b -> LOADS c t a b.
Proof. intros c t a b. apply LOADS_in_LOADS. Qed.
Lemma LOADS_in_imp : forall c (P Q : MshSpec -> Prop) t a b, (forall s, P s -> Q s) -> LOADS_in c P t a b -> LOADS_in c Q t a b.
Proof. intros c P Q t a b. apply LOADSw_imp. Qed.
Lemma LOADS_in_app : forall c P t1 t2 a b d, LOADS_in c P t1 a b -> LOADS_in c P t2 b d -> LOADS_in c P (t1 ++ t2) a d.
Proof. intros c P t1 t2 a b d H1 H2. exact (LOADSw_app c P [] [] t1 t2 a b d H1 H2). Qed.
Lemma LOADS_in_nil : forall c (P : MshSpec -> Prop) a, P a -> LOADS_in c P [] a a.
Proof. exact LOADSw_nil. Qed.
Lemma LOADS_nil : forall c spec, LOADS c [] spec spec.
Proof. intros. apply LOADS_in_nil. exact I. Qed.
Lemma LOADS_app : forall c t1 t2 a b d, LOADS c t1 a b -> LOADS c t2 b d -> LOADS c (t1 ++ t2) a d.
Proof. intros c t1 t2 a b d. apply LOADS_in_app. Qed.

Lemma LOADSw_complete : forall c P l t spec, LOADSw c P l t spec_default spec -> complete c t spec.
Proof.
  intros c P l t spec H rest. destruct (H [] rest ws_nil) as (n & u & W & E).
  exists u. split; [exact W|]. exists n. eapply walk_steps. exact E.
Qed.
Lemma LOADS_complete : forall c t spec, LOADS c t spec_default spec -> complete c t spec.
Proof. intros c t spec. apply LOADSw_complete. Qed.

(** A writer and its reading. *)
Definition PIECE (c : cfg) (w : W) (spec spec' : MshSpec) : Prop :=
  exists t, w = (t, Ok tt) /\ LOADS c t spec spec'.

Lemma PIECE_seq : forall c w1 w2 a b d, PIECE c w1 a b -> PIECE c w2 b d -> PIECE c (w1 +++ w2) a d.
Proof.
  intros c w1 w2 a b d (t1 & E1 & L1) (t2 & E2 & L2). exists (t1 ++ t2).
  split; [apply wseq_ok; assumption|eapply LOADS_app; eauto].
Qed.

Lemma PIECE_ret : forall c a, PIECE c wret a a.
Proof. intros. exists []. split; [reflexivity|apply LOADS_nil]. Qed.

(** The same, remembering what has been read on the way. *)
Definition PIECE_in (c : cfg) (P : MshSpec -> Prop) (w : W) (spec spec' : MshSpec) : Prop :=
  exists t, w = (t, Ok tt) /\ LOADS_in c P t spec spec'.
Definition PIECE1 (c : cfg) (w : W) (spec spec' : MshSpec) : Prop :=
  PIECE_in c (fun s => s = spec \/ s = spec') w spec spec'.

Lemma PIECE_in_PIECE : forall c P w a b, PIECE_in c P w a b -> PIECE c w a b.
Proof. intros c P w a b (t & E & L). exists t. split; [exact E|eapply LOADS_in_LOADS; exact L]. Qed.
Lemma PIECE1_PIECE : forall c w a b, PIECE1 c w a b -> PIECE c w a b.
Proof. intros c w a b. apply PIECE_in_PIECE. Qed.
Lemma PIECE_in_imp : forall c (P Q : MshSpec -> Prop) w a b, (forall s, P s -> Q s) -> PIECE_in c P w a b -> PIECE_in c Q w a b.
Proof. intros c P Q w a b I (t & E & L). exists t. split; [exact E|eapply LOADS_in_imp; eassumption]. Qed.
Lemma PIECE_in_seq : forall c P w1 w2 a b d, PIECE_in c P w1 a b -> PIECE_in c P w2 b d -> PIECE_in c P (w1 +++ w2) a d.
Proof.
  intros c P w1 w2 a b d (t1 & E1 & L1) (t2 & E2 & L2). exists (t1 ++ t2).
  split; [apply wseq_ok; assumption|eapply LOADS_in_app; eauto].
Qed.
Lemma PIECE1_ret : forall c a, PIECE1 c wret a a.
Proof. intros. exists []. split; [reflexivity|apply LOADS_in_nil; left; reflexivity]. Qed.

(** ** End of file *)

Lemma rd_token_end : forall old u, ws u ->
  rd_token old (opened u) = (old, {| rest := []; eofb := true; failb := true |}).
Proof.
  intros old u Hu. unfold rd_token, sentry. cbn [good opened eofb failb IStream.rest negb andb].
  rewrite <- (app_nil_r u). rewrite skip_ws_app by exact Hu. reflexivity.
Qed.

Lemma load_loop_end : forall f c spec u, ws u ->
  load_loop (2 + f) c spec (opened u) = Ok (spec, {| rest := []; eofb := true; failb := true |}).
Proof.
  intros f c spec u Hu. cbn [Nat.add load_loop opened eofb]. unfold load_step.
  change {| IStream.rest := u; eofb := false; failb := false |} with (opened u).
  rewrite rd_token_end by exact Hu. reflexivity.
Qed.

Lemma LOADSw_file : forall c P l t spec, LOADSw c P l t spec_default spec -> load_msh c t = post_process c spec.
Proof.
  intros c P l t spec H. destruct (LOADSw_complete c P l t spec H []) as (u & W & R).
  rewrite !app_nil_r in R.
  assert (F : finishes c (Main spec (opened u)) (Ok (spec, {| rest := []; eofb := true; failb := true |}))).
  { split; [discriminate|]. exists 2%nat. exact (load_loop_end 0 c spec u W). }
  rewrite (reached_result c t _ _ R F). reflexivity.
Qed.

Lemma LOADS_file : forall c t spec, LOADS c t spec_default spec -> load_msh c t = post_process c spec.
Proof. intros c t spec. apply LOADSw_file. Qed.

(** ** One section *)

(** A marker of a section load_msh knows. *)
Definition known_marker (name : bytes) : bool :=
  match name with x24 :: n => known n | _ => false end.
Lemma known_marker_section : forall name, known_marker name = true -> is_section name = true.
Proof. intros [|[] name] H; try discriminate H. reflexivity. Qed.
Lemma known_marker_quiet : forall spec s name s1, rd_token [] s = (name, s1) -> known_marker name = true ->
  unknown_at (Main spec s) = [].
Proof.
  intros spec s name s1 E H. cbn [unknown_at]. destruct (eofb s); [reflexivity|]. rewrite E. cbn [fst].
  destruct name as [|[] name]; try reflexivity. cbn [known_marker] in H. rewrite H. reflexivity.
Qed.

Lemma token_app : forall a b, token a -> Forall (fun x => is_ws x = false) b -> token (a ++ b).
Proof.
  intros a b [N F] H. split; [|apply Forall_app; auto]. destruct a; [congruence|discriminate].
Qed.

(** A section: name line, body read by [dispatch], end marker. *)
Lemma section_LOADS1 : forall c name body spec spec' p,
  token name -> known_marker name = true ->
  EX (dispatch c name spec) (endl ++ body) spec' p -> ws p ->
  LOADS1 c ((name ++ endl) ++ body ++ (str "$End" ++ tl name ++ endl)) spec spec'.
Proof.
  intros c name body spec spec' p Hn Hs HD Hp u rest Hu.
  assert (R : forall v X old nm, ws v -> token nm ->
              rd_token old (opened (v ++ nm ++ endl ++ X)) = (nm, opened (endl ++ X))).
  { intros v X old nm Hv [Hn' Hf]. destruct nm as [|x nm]; [congruence|].
    inversion Hf as [|? ? Hx Hf']; subst. unfold rd_token. cbn [app].
    rewrite sentry_ws by assumption. cbn [IStream.rest opened].
    change (x :: nm ++ endl ++ X) with ((x :: nm) ++ (endl ++ X)).
    rewrite take_token_app by (auto; reflexivity). reflexivity. }
  assert (T : token (end_marker name)).
  { unfold end_marker. apply token_app.
    - split; [discriminate|]. repeat constructor.
    - destruct Hn as [Hn Hf]. destruct name; [congruence|]. inversion Hf; assumption. }
  exists 3%nat, endl. split; [apply ws_endl|].
  assert (R0 : rd_token [] (opened (u ++ ((name ++ endl) ++ body ++ str "$End" ++ tl name ++ endl) ++ rest)) =
    (name, opened (endl ++ body ++ str "$End" ++ tl name ++ endl ++ rest))).
  { rewrite <- !app_assoc. apply R; assumption. }
  eapply walk_S; [left; reflexivity| | |rewrite (known_marker_quiet _ _ _ _ R0 Hs); reflexivity].
  { eapply step_section; [reflexivity|exact R0|apply known_marker_section; exact Hs|].
    rewrite app_assoc. rewrite HD; [reflexivity|discriminate]. }
  eapply walk_S; [right; reflexivity| | |reflexivity].
  { eapply step_skip; [reflexivity|discriminate|].
    change (str "$End" ++ tl name ++ endl ++ rest) with (end_marker name ++ endl ++ rest).
    apply R; assumption. }
  eapply walk_S; [right; reflexivity|apply step_found; right; reflexivity|constructor; right; reflexivity|reflexivity].
Qed.

Lemma section_LOADS : forall c name body spec spec' p,
  token name -> known_marker name = true ->
  EX (dispatch c name spec) (endl ++ body) spec' p -> ws p ->
  LOADS c ((name ++ endl) ++ body ++ (str "$End" ++ tl name ++ endl)) spec spec'.
Proof. intros. apply LOADS1_LOADS. eapply section_LOADS1; eassumption. Qed.

Lemma section_SOLE : forall c name w body spec spec' p,
  token name -> known_marker name = true -> w = (body, Ok tt) ->
  EX (dispatch c name spec) (endl ++ body) spec' p -> ws p ->
  PIECE1 c (out (name ++ endl) +++ w +++ out (str "$End" ++ tl name ++ endl)) spec spec'.
Proof.
  intros c name w body spec spec' p Hn Hs -> HD Hp.
  eexists. split; [|eapply section_LOADS1; eauto]. reflexivity.
Qed.
Lemma section_PIECE : forall c name w body spec spec' p,
  token name -> known_marker name = true -> w = (body, Ok tt) ->
  EX (dispatch c name spec) (endl ++ body) spec' p -> ws p ->
  PIECE c (out (name ++ endl) +++ w +++ out (str "$End" ++ tl name ++ endl)) spec spec'.
Proof. intros. apply PIECE1_PIECE. eapply section_SOLE; eassumption. Qed.

(** The body is text: leading whitespace is skipped. *)
Lemma RT_EX : forall A (r : M A) t v, RT r t v -> exists p, ws p /\ EX r (endl ++ t) v p.
Proof. intros A r t v H. apply H. apply ws_endl. Qed.

Lemma section_SOLE_RT : forall c name w body spec spec',
  token name -> known_marker name = true -> w = (body, Ok tt) ->
  RT (dispatch c name spec) body spec' ->
  PIECE1 c (out (name ++ endl) +++ w +++ out (str "$End" ++ tl name ++ endl)) spec spec'.
Proof.
  intros c name w body spec spec' Hn Hs Hw H. apply RT_EX in H. destruct H as (p & Wp & H).
  eapply section_SOLE; eauto.
Qed.
Lemma section_PIECE_RT : forall c name w body spec spec',
  token name -> known_marker name = true -> w = (body, Ok tt) ->
  RT (dispatch c name spec) body spec' ->
  PIECE c (out (name ++ endl) +++ w +++ out (str "$End" ++ tl name ++ endl)) spec spec'.
Proof. intros. apply PIECE1_PIECE. eapply section_SOLE_RT; eassumption. Qed.

(** ** $MeshFormat *)

Lemma eat_all_format : forall rest, eat_all (opened (endl ++ x01 :: rest)) = (tt, opened (x01 :: rest)).
Proof. intro rest. reflexivity. Qed.

Definition format_body (f : MeshFormat) : bytes :=
  version f ++ sp ++ show_Z (file_type f) ++ sp ++ show_Z (data_size f) ++ endl ++
  (if file_type f =? 1 then le 4 1 else []).

Lemma format_EX : forall f spec,
  version f = v41s \/ version f = v22s -> file_type f = 0 \/ file_type f = 1 ->
  data_size f = 8 \/ (version f = v22s /\ int_ok (data_size f)) ->
  EX (load_mesh_format spec) (endl ++ format_body f) (set_format f spec)
     (if file_type f =? 1 then [] else endl).
Proof.
  intros f spec Hv Ht Hd.
  assert (Hdi : int_ok (data_size f)) by (destruct Hd as [->|[_ H]]; [split; vm_compute; discriminate|exact H]).
  assert (Hti : int_ok (file_type f)) by (destruct Ht as [->| ->]; split; vm_compute; discriminate).
  assert (Tv : token (version f)) by (destruct Hv as [->| ->]; (split; [discriminate|repeat constructor])).
  assert (Q1 : negb (bytes_eqb (version f) v22s) && negb (bytes_eqb (version f) v41s) = false)
    by (destruct Hv as [->| ->]; reflexivity).
  assert (Q2 : bytes_eqb (version f) v41s && negb (to_size (data_size f) =? 8) = false).
  { destruct Hd as [->|[-> _]]; [|reflexivity]. apply andb_false_r. }
  unfold load_mesh_format, format_body. rewrite (app_assoc (version f)).
  rewrite (app_assoc endl).
  eapply EX_bind; [apply (rd_token_EX _ _ endl sp); auto with rt; discriminate|]. rewrite Q1.
  rewrite (app_assoc (show_Z _)), (app_assoc sp).
  eapply EX_bind; [apply (rd_num_EX _ _ _ _ _ sp sp); auto with rt; [apply reads_int; exact Hti|discriminate]|].
  rewrite (app_assoc (show_Z _)), (app_assoc sp).
  eapply EX_bind; [apply (rd_num_EX _ _ _ _ _ sp endl); auto with rt; [apply reads_int; exact Hdi|discriminate]|].
  rewrite Q2.
  assert (Ef : {| version := version f; file_type := file_type f; data_size := data_size f |} = f)
    by (destruct f; reflexivity).
  rewrite Ef.
  destruct Ht as [Ht|Ht]; rewrite Ht; cbn [Z.eqb Pos.eqb negb].
  - rewrite app_nil_r. eapply EX_bind0; [intros; reflexivity|]. apply EX_ret.
  - intros rest Hr. unfold bind at 1. unfold bind at 1. unfold op at 1.
    change ((endl ++ le 4 1) ++ rest) with (endl ++ x01 :: x00 :: x00 :: x00 :: rest).
    rewrite eat_all_format. unfold bind at 1.
    change (x01 :: x00 :: x00 :: x00 :: rest) with (le 4 1 ++ rest).
    rewrite (rd_raw_int_RB 0 1); [reflexivity|split; vm_compute; discriminate|exact Hr].
Qed.

Lemma format_SOLE : forall c s spec,
  version (mesh_format s) = v41s \/ version (mesh_format s) = v22s ->
  file_type (mesh_format s) = 0 \/ file_type (mesh_format s) = 1 ->
  data_size (mesh_format s) = 8 \/ (version (mesh_format s) = v22s /\ int_ok (data_size (mesh_format s))) ->
  PIECE1 c (save_mesh_format s) spec (set_format (mesh_format s) spec).
Proof.
  intros c s spec Hv Ht Hd. set (f := mesh_format s) in *.
  assert (E : save_mesh_format s =
              out (str "$MeshFormat" ++ endl) +++ out (format_body f) +++
              out (str "$End" ++ tl (str "$MeshFormat") ++ endl)).
  { unfold save_mesh_format, format_body. fold f. cbn [wseq out wret]. destruct (file_type f =? 1);
      cbn [wseq out wret fst snd]; rewrite <- ?app_assoc; reflexivity. }
  rewrite E.
  eapply section_SOLE; [split; [discriminate|repeat constructor]|reflexivity|reflexivity|apply format_EX; assumption|].
  destruct (file_type f =? 1); auto with rt.
Qed.
Lemma format_PIECE : forall c s spec,
  version (mesh_format s) = v41s \/ version (mesh_format s) = v22s ->
  file_type (mesh_format s) = 0 \/ file_type (mesh_format s) = 1 ->
  data_size (mesh_format s) = 8 \/ (version (mesh_format s) = v22s /\ int_ok (data_size (mesh_format s))) ->
  PIECE c (save_mesh_format s) spec (set_format (mesh_format s) spec).
Proof. intros. apply PIECE1_PIECE. eapply format_SOLE; eassumption. Qed.
