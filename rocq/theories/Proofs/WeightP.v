(** What is stored has been read. *)

From Verif Require Import Model.LoadMsh Spec.Weight Spec.Steps Spec.Files22 Proofs.BytesP Proofs.RtBase Proofs.Mono Proofs.Hoare Proofs.ExtP Proofs.SkipP
  Proofs.TriP Proofs.Load22P Proofs.File22P Proofs.LoadedP.

Ltac Zify.zify_post_hook ::= idtac.

(** ** Weights *)

Lemma weigh_app : forall A (f : A -> Z) l m, weigh f (l ++ m) = weigh f l + weigh f m.
Proof. intros A f l m. induction l as [|x l IH]; [reflexivity|]. cbn [app weigh fold_right]. fold (weigh f (l ++ m)) (weigh f l). lia. Qed.

Lemma weigh_cons : forall A (f : A -> Z) x l, weigh f (x :: l) = f x + weigh f l.
Proof. reflexivity. Qed.

Lemma weigh_nil : forall A (f : A -> Z), weigh f [] = 0.
Proof. reflexivity. Qed.

Lemma weigh_ones : forall A (l : list A), weigh (fun _ => 1) l = zlen l.
Proof. intros A l. induction l as [|x l IH]; [reflexivity|]. rewrite weigh_cons, zlen_cons, IH. lia. Qed.

(** ** If the stream is still good afterwards, the result has been paid for *)

Definition left (s : istream) : Z := zlen (rest s).

Definition pays {A} (m : M A) (f : A -> Z) : Prop := forall s a s', m s = Ok (a, s') -> good s' = true ->
  good s = true /\ f a + left s' <= left s.

Lemma left_adv : forall s s', adv s s' -> left s' <= left s.
Proof. intros s s' (L & _). unfold left, zlen. lia. Qed.

Lemma pays_mono : forall A (m : M A), mono m -> pays m (fun _ => 0).
Proof.
  intros A m H s a s' E G. pose proof (H _ _ _ E) as D. split.
  - destruct (good s) eqn:B; [reflexivity|]. rewrite (adv_good _ _ D B) in G. discriminate.
  - pose proof (left_adv _ _ D). lia.
Qed.

Lemma pays_bind : forall A B (m : M A) (k : A -> M B) f h, pays m f -> (forall a, pays (k a) (fun b => h b - f a)) -> pays (bind m k) h.
Proof.
  intros A B m k f h P K s b s' E G. unfold bind in E. destruct (m s) as [[a s1]| | | |] eqn:Em; try discriminate.
  destruct (K a s1 b s' E G) as (G1 & L1). destruct (P s a s1 Em G1) as (G0 & L0). split; [exact G0|lia].
Qed.

Lemma pays_free : forall A B (m : M A) (k : A -> M B) h, mono m -> (forall a, pays (k a) h) -> pays (bind m k) h.
Proof.
  intros A B m k h Mn K. eapply pays_bind; [apply pays_mono; exact Mn|]. intros a s b s' E G. destruct (K a s b s' E G). split; [assumption|lia].
Qed.

(** With what is known about the result of the first part. *)
Lemma pays_bind_tri : forall A B (m : M A) (k : A -> M B) f h Q, pays m f -> tri m Q any_ub ->
  (forall a, Q a -> pays (k a) (fun b => h b - f a)) -> pays (bind m k) h.
Proof.
  intros A B m k f h Q P T K s b s' E G. unfold bind in E. destruct (m s) as [[a s1]| | | |] eqn:Em; try discriminate.
  destruct (K a (tri_post _ _ _ T _ _ _ Em) s1 b s' E G) as (G1 & L1). destruct (P s a s1 Em G1) as (G0 & L0). split; [exact G0|lia].
Qed.

Lemma pays_ret : forall A (a : A) h, h a <= 0 -> pays (ret a) h.
Proof. intros A a h H s b s' E G. injection E as <- <-. split; [exact G|lia]. Qed.

Lemma pays_le : forall A (m : M A) f h, pays m f -> (forall a, h a <= f a) -> pays m h.
Proof. intros A m f h P H s a s' E G. destruct (P s a s' E G). specialize (H a). split; [assumption|lia]. Qed.

Lemma pays_throw : forall A e (h : A -> Z), pays (throw e) h.
Proof. intros A e h s a s' E. discriminate. Qed.
Lemma pays_undef : forall A u (h : A -> Z), pays (undef u) h.
Proof. intros A e h s a s' E. discriminate. Qed.

Lemma pays_mapM : forall A B (f : A -> M B) g l, (forall x, pays (f x) g) -> pays (mapM f l) (weigh g).
Proof.
  intros A B f g l H. induction l as [|x l IH]; cbn [mapM]; [apply pays_ret; reflexivity|].
  eapply pays_bind; [apply H|]. intro y. eapply pays_bind; [exact IH|]. intro ys. apply pays_ret. rewrite weigh_cons. lia.
Qed.

Lemma pays_ones : forall A B (f : A -> M B) l, (forall x, pays (f x) (fun _ => 1)) -> pays (mapM f l) zlen.
Proof.
  intros A B f l H. eapply pays_le; [apply pays_mapM; exact H|]. intro r. rewrite weigh_ones. lia.
Qed.

Lemma pays_fill : forall A n (f : A -> M A) l, (forall x, pays (f x) (fun _ => 1)) -> pays (fill n f l) zlen.
Proof. intros A n f l H. unfold fill. destruct (_ =? _); [apply pays_ones; exact H|apply pays_undef]. Qed.

(** ** Numbers *)

Definition takes {A} (ext : bytes -> A * bool * bytes) : Prop :=
  forall b v r, ext b = (v, false, r) -> (S (List.length r) <= List.length b)%nat.

Lemma pays_num : forall A (ext : bytes -> A * bool * bytes) old, takes ext -> pays (op (rd_num ext old)) (fun _ => 1).
Proof.
  intros A ext old T s a s' E G. unfold op in E. injection E as E. unfold rd_num in E.
  destruct (sentry_cases s) as [(G0 & N & ES)|[(G0 & N & ES)|(G0 & ES)]]; rewrite ES in E.
  - split; [exact G0|]. cbn [with_rest IStream.rest] in E. destruct (ext (skip_ws (rest s))) as [[v fl] r] eqn:EX.
    injection E as -> <-. destruct (at_end_rest r (with_rest (skip_ws (rest s)) s)) as (e & EA). cbn [with_rest] in EA. rewrite EA in *.
    destruct fl; [unfold good in G; cbn in G; rewrite andb_false_r in G; discriminate|].
    apply T in EX. pose proof (skip_ws_length (rest s)). unfold left, zlen. cbn [IStream.rest]. lia.
  - injection E as _ <-. discriminate.
  - injection E as _ <-. unfold good in G. cbn in G. rewrite andb_false_r in G. discriminate.
Qed.

Lemma pays_num_opt : forall A (ext : bytes -> A * bool * bytes) old, takes ext -> pays (op (rd_num_opt ext old)) (fun _ => 1).
Proof.
  intros A ext old T s a s' E G. unfold op in E. injection E as E. unfold rd_num_opt in E.
  destruct (sentry_cases s) as [(G0 & N & ES)|[(G0 & N & ES)|(G0 & ES)]]; rewrite ES in E.
  - split; [exact G0|]. cbn [with_rest IStream.rest] in E. destruct (ext (skip_ws (rest s))) as [[v fl] r] eqn:EX.
    injection E as _ <-. destruct (at_end_rest r (with_rest (skip_ws (rest s)) s)) as (e & EA). cbn [with_rest] in EA. rewrite EA in *.
    destruct fl; [unfold good in G; cbn in G; rewrite andb_false_r in G; discriminate|].
    apply T in EX. pose proof (skip_ws_length (rest s)). unfold left, zlen. cbn [IStream.rest]. lia.
  - injection E as _ <-. discriminate.
  - injection E as _ <-. unfold good in G. cbn in G. rewrite andb_false_r in G. discriminate.
Qed.

Lemma take_digits_all : forall b, (List.length (fst (take_digits b)) + List.length (snd (take_digits b)) = List.length b)%nat.
Proof.
  induction b as [|c b IH]; [reflexivity|]. cbn [take_digits]. destruct (digit_of c); [|reflexivity].
  destruct (take_digits b). cbn [fst snd List.length] in *. lia.
Qed.

Lemma takes_int : takes extract_int.
Proof.
  intros b v r. unfold extract_int. pose proof (take_sign_length b). destruct (take_sign b) as [n b1].
  pose proof (take_digits_all b1). destruct (take_digits b1) as [ds b2]. cbn [fst snd] in *.
  destruct ds as [|d ds]; [discriminate|]. cbn [List.length] in *. cbv zeta.
  destruct (_ <? INT_MIN); [discriminate|]. destruct (INT_MAX <? _); [discriminate|]. intro E. injection E as _ <-. lia.
Qed.

Lemma takes_size : takes extract_size.
Proof.
  intros b v r. unfold extract_size. pose proof (take_sign_length b). destruct (take_sign b) as [n b1].
  pose proof (take_digits_all b1). destruct (take_digits b1) as [ds b2]. cbn [fst snd] in *.
  destruct ds as [|d ds]; [discriminate|]. cbn [List.length] in *. cbv zeta.
  destruct (SIZE_MAX <? _); [discriminate|]. intro E. injection E as _ <-. lia.
Qed.

Lemma scan_float_some : forall b t r, scan_float false false false b = (t, r) -> t <> [] -> (S (List.length r) <= List.length b)%nat.
Proof.
  intros b t r E N. destruct b as [|c b]; [injection E as <- <-; congruence|]. cbn [scan_float] in E.
  destruct (is_digit c).
  - pose proof (scan_float_length _ b true false false (le_n _)) as L. destruct (scan_float true false false b) as [t' r']. injection E as _ <-.
    cbn [snd List.length] in *. lia.
  - destruct (Byte.eqb c x2e && negb false && negb false).
    + pose proof (scan_float_length _ b false true false (le_n _)) as L. destruct (scan_float false true false b) as [t' r']. injection E as _ <-.
      cbn [snd List.length] in *. lia.
    + rewrite andb_false_r in E. injection E as <- <-. congruence.
Qed.

Lemma takes_double : takes extract_double.
Proof.
  intros b v r. unfold extract_double. pose proof (take_sign_length b). destruct (take_sign b) as [n b1].
  destruct (scan_float false false false b1) as [t b2] eqn:ES. cbn [snd] in *.
  destruct (parse_dec t) as [[m e]|] eqn:EP; [|discriminate]. destruct (inf_mag <=? _); [discriminate|].
  intro E. injection E as _ <-. assert (N : t <> []) by (intros ->; discriminate EP).
  pose proof (scan_float_some _ _ _ ES N). lia.
Qed.

Lemma pays_int : forall o, pays (op (rd_int o)) (fun _ => 1).
Proof. intro. apply pays_num, takes_int. Qed.
Lemma pays_size : forall o, pays (op (rd_size o)) (fun _ => 1).
Proof. intro. apply pays_num, takes_size. Qed.
Lemma pays_double : forall o, pays (op (rd_double o)) (fun _ => 1).
Proof. intro. apply pays_num, takes_double. Qed.
Lemma pays_int_opt : forall o, pays (op (rd_int_opt o)) (fun _ => 1).
Proof. intro. apply pays_num_opt, takes_int. Qed.
Lemma pays_size_opt : forall o, pays (op (rd_size_opt o)) (fun _ => 1).
Proof. intro. apply pays_num_opt, takes_size. Qed.

(** ** Names *)

Lemma unquote_all : forall n b t r, (List.length b <= n)%nat -> unquote b = (t, Some r) ->
  (S (List.length t + List.length r) <= List.length b)%nat.
Proof.
  induction n as [|n IH]; intros b t r L H.
  - destruct b; [discriminate|cbn in L; lia].
  - destruct b as [|c b]; [discriminate|]. cbn [List.length] in *.
    assert (Q : forall t0 (o : option bytes) c0, unquote b = (t0, o) -> (c0 :: t0, o) = (t, Some r) ->
              (S (List.length t + List.length r) <= S (List.length b))%nat).
    { intros t0 o c0 E E'. injection E' as <- ->. apply IH in E; [|lia]. cbn [List.length]. lia. }
    destruct c; cbn [unquote] in H;
      try (destruct (unquote b) as [t0 o] eqn:E; eapply Q; [reflexivity|exact H]).
    + injection H as <- <-. cbn [List.length]. lia.
    + destruct b as [|c b]; [discriminate|]. destruct (unquote b) as [t0 o] eqn:E.
      injection H as <- ->. cbn [List.length] in *. apply IH in E; lia.
Qed.

Lemma take_token_all : forall b t r, take_token b = (t, r) -> (List.length t + List.length r = List.length b)%nat.
Proof.
  induction b as [|c b IH]; intros t r E; cbn [take_token] in E; [injection E as <- <-; reflexivity|].
  destruct (is_ws c); [injection E as <- <-; reflexivity|]. destruct (take_token b) as [t' r'] eqn:ET. injection E as <- <-.
  cbn [List.length]. rewrite <- (IH t' r' eq_refl). reflexivity.
Qed.

Lemma skip_ws_head : forall b x r, skip_ws b = x :: r -> is_ws x = false.
Proof.
  induction b as [|c b IH]; intros x r E; [discriminate|]. cbn [skip_ws] in E. destruct (is_ws c) eqn:W; [eauto|]. congruence.
Qed.

Lemma token_pays : forall o s a s', rd_token o s = (a, s') -> good s' = true -> good s = true /\ name_weight a + left s' <= left s.
Proof.
  intros o s a s' E G. unfold rd_token in E.
  destruct (sentry_cases s) as [(G0 & N & ES)|[(G0 & N & ES)|(G0 & ES)]]; rewrite ES in E.
  - split; [exact G0|]. cbn [with_rest IStream.rest] in E. destruct (take_token (skip_ws (rest s))) as [t r] eqn:ET. injection E as <- <-.
    destruct (at_end_rest r (with_rest (skip_ws (rest s)) s)) as (e & EA). cbn [with_rest] in EA. rewrite EA in *.
    pose proof (take_token_all _ _ _ ET) as L. pose proof (skip_ws_length (rest s)).
    assert (1 <= List.length t)%nat.
    { destruct (skip_ws (rest s)) as [|x l] eqn:EW; [congruence|]. apply skip_ws_head in EW. cbn [take_token] in ET. rewrite EW in ET.
      destruct (take_token l). injection ET as <- _. cbn [List.length]. lia. }
    unfold name_weight, left, zlen. cbn [IStream.rest]. lia.
  - injection E as _ <-. discriminate.
  - injection E as _ <-. unfold good in G. cbn in G. rewrite andb_false_r in G. discriminate.
Qed.

Lemma pays_quoted : forall o, pays (op (rd_quoted o)) name_weight.
Proof.
  intros o s a s' E G. unfold op in E. injection E as E. unfold rd_quoted in E.
  destruct (sentry_cases s) as [(G0 & N & ES)|[(G0 & N & ES)|(G0 & ES)]]; rewrite ES in E.
  - split; [exact G0|]. cbn [with_rest IStream.rest] in E. pose proof (skip_ws_length (rest s)) as LW.
    assert (K : rd_token o {| rest := skip_ws (rest s); eofb := eofb s; failb := failb s |} = (a, s') -> name_weight a + left s' <= left s).
    { intro ET. destruct (token_pays _ _ _ _ ET G) as (_ & L). unfold left, zlen in *. cbn [IStream.rest] in L. lia. }
    destruct (skip_ws (rest s)) as [|x l] eqn:EW; [congruence|].
    assert (Q : x = x22 -> name_weight a + left s' <= left s).
    { intros ->. destruct (unquote l) as [t [r|]] eqn:EU.
      - injection E as <- <-. pose proof (unquote_all _ _ _ _ (le_n _) EU). unfold name_weight, left, zlen. cbn [with_rest IStream.rest List.length] in *. lia.
      - injection E as _ <-. discriminate. }
    destruct x; try (apply K; exact E). apply Q. reflexivity.
  - injection E as _ <-. discriminate.
  - injection E as _ <-. unfold good in G. cbn in G. rewrite andb_false_r in G. discriminate.
Qed.

(** ** Raw values *)

Lemma raw_pays : forall old s a k s', rd_raw old s = (a, k, s') -> good s' = true -> good s = true /\ zlen old + left s' <= left s.
Proof.
  intros old s a k s' E G. unfold rd_raw, sentry_noskip in E. destruct (good s) eqn:G0.
  - split; [reflexivity|]. destruct (_ <? _)%nat eqn:EL; [injection E as _ _ <-; discriminate|]. injection E as _ _ <-.
    apply Nat.ltb_ge in EL. rewrite firstn_length in EL. unfold left, zlen. cbn [with_rest IStream.rest]. rewrite skipn_length. lia.
  - injection E as _ _ <-. unfold good in G. cbn in G. rewrite andb_false_r in G. discriminate.
Qed.

Lemma le_len : forall n z, zlen (le n z) = Z.of_nat n.
Proof. intros n z. unfold zlen. f_equal. apply le_length. Qed.

Lemma pays_raw_size : forall o, pays (op (rd_raw_size o)) (fun _ => 1).
Proof.
  intros o s a s' E G. unfold op, rd_raw_size in E. destruct (rd_raw (le 8 o) s) as [[b k] s1] eqn:ER. injection E as _ <-.
  destruct (raw_pays _ _ _ _ _ ER G) as (G0 & L). rewrite le_len in L. split; [exact G0|lia].
Qed.
Lemma pays_raw_double : forall o, pays (op (rd_raw_double o)) (fun _ => 1).
Proof. exact pays_raw_size. Qed.
Lemma pays_raw_int : forall o, pays (op (rd_raw_int o)) (fun _ => 1).
Proof.
  intros o s a s' E G. unfold op, rd_raw_int in E. destruct (rd_raw (le 4 o) s) as [[b k] s1] eqn:ER. injection E as _ <-.
  destruct (raw_pays _ _ _ _ _ ER G) as (G0 & L). rewrite le_len in L. split; [exact G0|lia].
Qed.
Lemma pays_raw_int_opt : forall o, pays (op (rd_raw_int_opt o)) (fun _ => 1).
Proof.
  intros [o|] s a s' E G; unfold op, rd_raw_int_opt in E.
  - destruct (rd_raw_int o s) as [v s1] eqn:ER. injection E as _ <-. apply (pays_raw_int o s v s1); [unfold op; rewrite ER; reflexivity|exact G].
  - destruct (rd_raw (repeat x00 4) s) as [[b k] s1] eqn:ER. injection E as _ <-. destruct (raw_pays _ _ _ _ _ ER G) as (G0 & L).
    split; [exact G0|]. change (zlen (repeat x00 4)) with 4 in L. lia.
Qed.
Lemma pays_raw_size_opt : forall o, pays (op (rd_raw_size_opt o)) (fun _ => 1).
Proof.
  intros [o|] s a s' E G; unfold op, rd_raw_size_opt in E.
  - destruct (rd_raw_size o s) as [v s1] eqn:ER. injection E as _ <-. apply (pays_raw_size o s v s1); [unfold op; rewrite ER; reflexivity|exact G].
  - destruct (rd_raw (repeat x00 8) s) as [[b k] s1] eqn:ER. injection E as _ <-. destruct (raw_pays _ _ _ _ _ ER G) as (G0 & L).
    split; [exact G0|]. change (zlen (repeat x00 8)) with 8 in L. lia.
Qed.

Lemma pays_array : forall f l, (forall x, pays (op (f x)) (fun _ => 1)) -> pays (rd_raw_array f l) zlen.
Proof. intros f l H. apply pays_free; [apply mono_sentry|]. intros _. apply pays_ones. exact H. Qed.

Lemma pays_into : forall sz n f v, 0 < sz -> n = sz * zlen v -> (forall x, pays (op (f x)) (fun _ => 1)) ->
  pays (rd_raw_into sz n f v) zlen.
Proof.
  intros sz n f v P E H. unfold rd_raw_into. rewrite E, Z.ltb_irrefl. replace (sz * zlen v / sz) with (zlen v).
  2: { rewrite Z.mul_comm, Z.div_mul; [reflexivity|lia]. }
  unfold zlen at 1. rewrite Nat2Z.id, firstn_all. eapply pays_bind; [apply pays_array; exact H|]. intro l. apply pays_ret.
  unfold zlen at 2. rewrite Nat2Z.id, skipn_all, app_nil_r. lia.
Qed.

(** ** Sections *)

Ltac pay1 :=
  match goal with
  | |- pays (bind (op (rd_int _)) _) _ => eapply pays_bind; [apply pays_int|intro]
  | |- pays (bind (op (rd_size _)) _) _ => eapply pays_bind; [apply pays_size|intro]
  | |- pays (bind (op (rd_double _)) _) _ => eapply pays_bind; [apply pays_double|intro]
  | |- pays (bind (op (rd_int_opt _)) _) _ => eapply pays_bind; [apply pays_int_opt|intro]
  | |- pays (bind (op (rd_size_opt _)) _) _ => eapply pays_bind; [apply pays_size_opt|intro]
  | |- pays (bind (op (rd_quoted _)) _) _ => eapply pays_bind; [apply pays_quoted|intro]
  | |- pays (bind (op (rd_raw_int _)) _) _ => eapply pays_bind; [apply pays_raw_int|intro]
  | |- pays (bind (op (rd_raw_size _)) _) _ => eapply pays_bind; [apply pays_raw_size|intro]
  | |- pays (bind (op (rd_raw_double _)) _) _ => eapply pays_bind; [apply pays_raw_double|intro]
  | |- pays (bind (op (rd_raw_int_opt _)) _) _ => eapply pays_bind; [apply pays_raw_int_opt|intro]
  | |- pays (bind (op (rd_raw_size_opt _)) _) _ => eapply pays_bind; [apply pays_raw_size_opt|intro]
  | |- pays (bind (op eat1) _) _ => apply pays_free; [apply mono_op_eat1|intro]
  | |- pays (bind (lift _) _) _ => apply pays_free; [apply mono_lift|intro]
  | |- pays (bind (use _) _) _ => apply pays_free; [apply mono_use|intro]
  | |- pays (bind (massert _ _) _) _ => apply pays_free; [apply mono_massert|intro]
  | |- pays (bind (assert_good _) _) _ => apply pays_free; [apply mono_assert_good|intro]
  | |- pays (bind (mapM (fun _ => op (rd_int _)) _) _) _ => eapply pays_bind; [apply pays_ones; intro; apply pays_int|intro]
  | |- pays (bind (mapM (fun _ => op (rd_size _)) _) _) _ => eapply pays_bind; [apply pays_ones; intro; apply pays_size|intro]
  | |- pays (bind (mapM (fun _ => op (rd_double _)) _) _) _ => eapply pays_bind; [apply pays_ones; intro; apply pays_double|intro]
  | |- pays (bind (fill _ (fun _ => op (rd_size _)) _) _) _ => eapply pays_bind; [apply pays_fill; intro; apply pays_size|intro]
  | |- pays (bind (fill _ (fun _ => op (rd_double _)) _) _) _ => eapply pays_bind; [apply pays_fill; intro; apply pays_double|intro]
  | |- pays (bind (rd_raw_array rd_raw_int _) _) _ => eapply pays_bind; [apply pays_array; intro; apply pays_raw_int|intro]
  | |- pays (bind (rd_raw_array rd_raw_size _) _) _ => eapply pays_bind; [apply pays_array; intro; apply pays_raw_size|intro]
  | |- pays (bind (rd_raw_array rd_raw_double _) _) _ => eapply pays_bind; [apply pays_array; intro; apply pays_raw_double|intro]
  | |- pays (throw _) _ => apply pays_throw
  | |- pays (undef _) _ => apply pays_undef
  end.
Ltac pay := repeat pay1.
Ltac paid := apply pays_ret; prj; cbn [pg_dim pg_tag pg_name pe_tag pe_phys en_tag en_phys en_bnd points curves_e surfaces_e volumes_e
  string_tags real_tags int_tags de_tag de_npe de_data d_header d_entries]; try lia.

Lemma zlen_pos : forall A (l : list A), 0 <= zlen l.
Proof. intros. unfold zlen. lia. Qed.

(** Nodes. *)

Definition tags_weight (b : NodeBlock) : Z := zlen (nb_tags b).
Definition block_weight (b : NodeBlock) : Z := zlen (nb_tags b) + (4 + zlen (nb_data b)).
Definition elements_weight (b : ElementBlock) : Z := 4 + zlen (eb_data b).

Lemma node_block_ascii_pays : forall c b, pays (v41_node_block_ascii c b) block_weight.
Proof. intros. unfold v41_node_block_ascii. pay. paid. unfold block_weight. prj. lia. Qed.

Lemma node_block_binary_pays : forall c b, pays (v41_node_block_binary c b) block_weight.
Proof.
  intros. unfold v41_node_block_binary. do 3 pay1.
  eapply pays_bind_tri; [apply pays_raw_size|apply tri_raw_size|]. intros num Hn. pay1.
  eapply pays_bind_tri; [apply pays_mono; apply mono_lift|
    apply (tri_resize any_ub _ c sz_size 0 _ (nb_tags b) (fun _ => True)); [apply Hn|exact I|apply Forall_forall; auto]|].
  intros tags0 (L1 & _ & B1 & _). change sz_size with 8 in *. change sz_double with 8 in *. rewrite PD8 in B1.
  eapply pays_bind; [apply pays_into; [reflexivity|rewrite L1; apply to_size_id; unfold size_ok, two64 in *; lia|intro; apply pays_raw_size]|].
  intro tags. pay1.
  eapply pays_bind_tri; [apply pays_mono; apply mono_lift|apply tri_epn; exact I|]. intros e ->.
  eapply pays_bind_tri; [apply pays_mono; apply mono_lift|
    apply (tri_resize any_ub _ c 8 0 _ (nb_data b) (fun _ => True)); [apply to_size_range|exact I|apply Forall_forall; auto]|].
  intros data0 (L3 & _ & B3 & _). rewrite PD8 in B3.
  eapply pays_bind; [apply pays_into; [reflexivity| |intro; apply pays_raw_double]|].
  { etransitivity; [|apply f_equal; symmetry; exact L3]. exact (bytes_words _ _ B3). }
  intro data. pay. paid. unfold block_weight. prj. change (@zlen dbl) with (@zlen Z). lia.
Qed.

Lemma nodes41_pays : forall c ascii n, pays (if ascii : bool then v41_load_nodes_ascii c n else v41_load_nodes_binary c n)
  (fun n' => weigh block_weight (n_blocks n')).
Proof.
  intros c [|] n.
  - unfold v41_load_nodes_ascii. pay. eapply pays_bind; [apply pays_mapM; apply node_block_ascii_pays|intro]. paid.
  - unfold v41_load_nodes_binary. pay. eapply pays_bind; [apply pays_mapM; apply node_block_binary_pays|intro]. paid.
Qed.

(** Elements. *)

Lemma elements41_pays : forall c ascii e, pays (if ascii : bool then v41_load_elements_ascii c e else v41_load_elements_binary c e)
  (fun e' => weigh elements_weight (e_blocks e')).
Proof.
  intros c [|] e.
  - unfold v41_load_elements_ascii. pay. eapply pays_bind; [apply (pays_mapM _ _ _ elements_weight)|intro; paid].
    intro b. unfold v41_element_block_ascii. pay. paid. unfold elements_weight. prj. lia.
  - unfold v41_load_elements_binary. pay. eapply pays_bind; [apply (pays_mapM _ _ _ elements_weight)|intro; paid].
    intro b. unfold v41_element_block_binary. pay. paid. unfold elements_weight. prj. lia.
Qed.

(** Entities. *)

Definition point_weight (p : PointEntity) : Z := 4 + zlen (pe_phys p).
Definition entity_weight (e : Entity) : Z := 7 + zlen (en_phys e) + zlen (en_bnd e).
Definition entities_weight (e : Entities) : Z :=
  weigh point_weight (points e) + weigh entity_weight (curves_e e) + weigh entity_weight (surfaces_e e) +
  weigh entity_weight (volumes_e e).

Lemma ints_ascii_pays : forall c o, pays (ints_ascii c o) zlen.
Proof.
  intros. unfold ints_ascii. pay. eapply pays_le; [apply pays_ones; intro; apply pays_int|]. intro l. cbv beta. lia.
Qed.
Lemma ints_binary_pays : forall c o, pays (ints_binary c o) zlen.
Proof. intros. unfold ints_binary. pay. paid. Qed.

Lemma entities41_pays : forall c ascii e, pays (if ascii : bool then v41_load_entities_ascii c e else v41_load_entities_binary c e)
  entities_weight.
Proof.
  assert (MR : forall c a b d f e, mono (resize_entities c a b d f e)) by (intros; unfold resize_entities; mono_go).
  intros c [|] e.
  - assert (P : forall p, pays (point_ascii c p) point_weight).
    { intro p. unfold point_ascii. pay. eapply pays_bind; [apply ints_ascii_pays|intro]. paid. unfold point_weight. cbn [pe_phys]. lia. }
    assert (Q : forall p, pays (entity_ascii c p) entity_weight).
    { intro p. unfold entity_ascii. pay. do 2 (eapply pays_bind; [apply ints_ascii_pays|intro]). paid.
      unfold entity_weight. cbn [en_phys en_bnd]. lia. }
    unfold v41_load_entities_ascii. pay. apply pays_free; [apply MR|intro].
    eapply pays_bind; [apply pays_mapM; exact P|intro]. do 3 (eapply pays_bind; [apply pays_mapM; exact Q|intro]). pay. paid.
    unfold entities_weight. cbn [points curves_e surfaces_e volumes_e]. lia.
  - assert (P : forall p, pays (point_binary c p) point_weight).
    { intro p. unfold point_binary. pay. eapply pays_bind; [apply ints_binary_pays|intro]. paid. unfold point_weight. cbn [pe_phys]. lia. }
    assert (Q : forall p, pays (entity_binary c p) entity_weight).
    { intro p. unfold entity_binary. pay. do 2 (eapply pays_bind; [apply ints_binary_pays|intro]). paid.
      unfold entity_weight. cbn [en_phys en_bnd]. lia. }
    unfold v41_load_entities_binary. pay. apply pays_free; [apply MR|intro].
    eapply pays_bind; [apply pays_mapM; exact P|intro]. do 3 (eapply pays_bind; [apply pays_mapM; exact Q|intro]). paid.
    unfold entities_weight. cbn [points curves_e surfaces_e volumes_e]. lia.
Qed.

(** Groups and data. *)

Lemma groups_pays : forall c spec, pays (load_physical_groups c spec) (fun s => weigh group_weight (physical_groups s)).
Proof.
  intros. unfold load_physical_groups. pay. eapply pays_bind; [apply pays_mapM with (g := group_weight)|intro; pay; paid].
  - intro g. unfold load_group. pay. paid. unfold group_weight. cbn [pg_name]. lia.
  - change (physical_groups (set_physical_groups a2 spec)) with a2. lia.
Qed.

Lemma header_pays : forall c, pays (load_data_header c)
  (fun h => weigh name_weight (string_tags h) + zlen (real_tags h) + zlen (int_tags h)).
Proof.
  intro c. unfold load_data_header. pay. eapply pays_bind; [apply pays_mapM; apply pays_quoted|intro]. pay. paid.
Qed.

Lemma data_pays : forall c v bin end_, pays (load_data c v bin end_) data_weight.
Proof.
  intros c v bin end_. unfold load_data. eapply pays_bind; [apply header_pays|intro h].
  destruct (int_tags h) as [|i0 [|i1 [|i2 l]]]; pay.
  eapply pays_bind with (f := weigh entry_weight); [|intro; pay; paid; unfold data_weight; cbn [d_header d_entries]; lia].
  assert (B : forall is22 fields e, pays (entry_binary c is22 fields end_ e) entry_weight).
  { intros is22 fields e. unfold entry_binary. pay. apply pays_free; [mono_go|intro]. pay. paid. unfold entry_weight. cbn [de_data]. change (@zlen dbl) with (@zlen Z). lia. }
  assert (T : forall fields e, pays (entry_ascii c fields end_ e) entry_weight).
  { intros fields e. unfold entry_ascii. pay. destruct end_; pay; paid; unfold entry_weight; cbn [de_data]; lia. }
  destruct bin; [|apply pays_mapM; apply T]. pay.
  destruct (bytes_eqb v v41s); [apply pays_mapM; apply B|]. destruct (bytes_eqb v v22s); [apply pays_mapM; apply B|pay].
Qed.

(** ** In debug builds a section ends with a good stream *)

Section Debug.
Variable c : cfg.
Hypothesis D : ndebug c = false.

Definition keeps {A} (m : M A) : Prop := forall s a s', m s = Ok (a, s') -> good s = true -> good s' = true.
Definition ends {A} (m : M A) : Prop := forall s a s', m s = Ok (a, s') -> good s' = true.

Lemma ends_keeps : forall A (m : M A), ends m -> keeps m.
Proof. intros A m H s a s' E _. eapply H. exact E. Qed.
Lemma ends_assert : ends (assert_good c).
Proof. intros s a s' E. unfold assert_good, massert in E. rewrite D in E. destruct (good s) eqn:G; [|discriminate]. injection E as _ <-. exact G. Qed.
Lemma ends_bind : forall A B (m : M A) (k : A -> M B), (forall a, ends (k a)) -> ends (bind m k).
Proof. intros A B m k H s b s' E. unfold bind in E. destruct (m s) as [[a s1]| | | |]; try discriminate. eapply H. exact E. Qed.
Lemma ends_first : forall A B (m : M A) (k : A -> M B), ends m -> (forall a, keeps (k a)) -> ends (bind m k).
Proof.
  intros A B m k H K s b s' E. unfold bind in E. destruct (m s) as [[a s1]| | | |] eqn:Em; try discriminate.
  eapply K; [exact E|]. eapply H. exact Em.
Qed.
Lemma keeps_bind : forall A B (m : M A) (k : A -> M B), keeps m -> (forall a, keeps (k a)) -> keeps (bind m k).
Proof.
  intros A B m k H K s b s' E G. unfold bind in E. destruct (m s) as [[a s1]| | | |] eqn:Em; try discriminate.
  eapply K; [exact E|]. eapply H; [exact Em|exact G].
Qed.
Lemma keeps_ret : forall A (a : A), keeps (ret a).
Proof. intros A a s b s' E G. injection E as _ <-. exact G. Qed.
Lemma keeps_lift : forall A (o : outcome A), keeps (lift o).
Proof. intros A o s a s' E G. unfold lift in E. destruct o; try discriminate. injection E as _ <-. exact G. Qed.
Lemma keeps_use : forall A (o : option A), keeps (use o).
Proof. intros A o s a s' E G. unfold use in E. destruct o; try discriminate. injection E as _ <-. exact G. Qed.
Lemma keeps_mapM : forall A B (f : A -> M B) l, (forall x, keeps (f x)) -> keeps (mapM f l).
Proof. intros A B f l H. induction l as [|x l IH]; cbn [mapM]; [apply keeps_ret|]. apply keeps_bind; [apply H|intro]. apply keeps_bind; [exact IH|intro; apply keeps_ret]. Qed.

(** The last assertion. *)
Ltac last_assert :=
  repeat match goal with
  | |- ends (bind (assert_good c) (fun _ => ret _)) => fail 1
  | |- ends (bind _ _) => apply ends_bind; intro
  end; apply ends_first; [apply ends_assert|intro; apply keeps_ret].

Lemma ints_binary_ends : forall o, ends (ints_binary c o).
Proof. intro. unfold ints_binary. last_assert. Qed.

Lemma nodes41_ends : forall (ascii : bool) n, ends (if ascii then v41_load_nodes_ascii c n else v41_load_nodes_binary c n).
Proof.
  intros [|] n.
  - unfold v41_load_nodes_ascii. do 4 (apply ends_bind; intro). apply ends_first; [apply ends_assert|intro].
    apply keeps_bind; [apply keeps_lift|intro]. apply keeps_bind; [|intro; apply keeps_ret]. apply keeps_mapM. intro b. apply ends_keeps.
    unfold v41_node_block_ascii. last_assert.
  - unfold v41_load_nodes_binary. do 5 (apply ends_bind; intro). apply ends_first; [apply ends_assert|intro].
    apply keeps_bind; [apply keeps_lift|intro]. apply keeps_bind; [|intro; apply keeps_ret]. apply keeps_mapM. intro b. apply ends_keeps.
    unfold v41_node_block_binary. last_assert.
Qed.

Lemma elements41_ends : forall (ascii : bool) e, ends (if ascii then v41_load_elements_ascii c e else v41_load_elements_binary c e).
Proof.
  intros [|] n.
  - unfold v41_load_elements_ascii. do 4 (apply ends_bind; intro). apply ends_first; [apply ends_assert|intro].
    apply keeps_bind; [apply keeps_lift|intro]. apply keeps_bind; [|intro; apply keeps_ret]. apply keeps_mapM. intro b. apply ends_keeps.
    unfold v41_element_block_ascii. last_assert.
  - unfold v41_load_elements_binary. do 5 (apply ends_bind; intro). apply ends_first; [apply ends_assert|intro].
    apply keeps_bind; [apply keeps_lift|intro]. apply keeps_bind; [|intro; apply keeps_ret]. apply keeps_mapM. intro b. apply ends_keeps.
    unfold v41_element_block_binary. last_assert.
Qed.

Lemma entities41_ends : forall (ascii : bool) e, ends (if ascii then v41_load_entities_ascii c e else v41_load_entities_binary c e).
Proof.
  intros [|] e.
  - unfold v41_load_entities_ascii. last_assert.
  - assert (P : forall p, ends (point_binary c p)).
    { intro p. unfold point_binary. do 4 (apply ends_bind; intro). apply ends_first; [apply ints_binary_ends|intro; apply keeps_ret]. }
    assert (Q : forall p, ends (entity_binary c p)).
    { intro p. unfold entity_binary. do 8 (apply ends_bind; intro). apply ends_first; [apply ints_binary_ends|intro; apply keeps_ret]. }
    unfold v41_load_entities_binary. do 5 (apply ends_bind; intro). apply ends_first; [apply ends_assert|intro].
    apply keeps_bind.
    { unfold resize_entities. repeat (apply keeps_bind; [first [apply keeps_use|apply keeps_lift]|intro]). apply keeps_ret. }
    intro. apply keeps_bind; [apply keeps_mapM; intro; apply ends_keeps, P|intro].
    do 3 (apply keeps_bind; [apply keeps_mapM; intro; apply ends_keeps, Q|intro]). apply keeps_ret.
Qed.

Lemma groups_ends : forall spec, ends (load_physical_groups c spec).
Proof. intro. unfold load_physical_groups. last_assert. Qed.

Lemma data_ends : forall v bin end_, ends (load_data c v bin end_).
Proof.
  intros. unfold load_data. apply ends_bind. intro h. destruct (int_tags h) as [|i0 [|i1 [|i2 l]]]; try (intros s a s' E; discriminate).
  cbv zeta. last_assert.
Qed.

(** So what it stores is there. *)
Definition costs {A} (m : M A) (f : A -> Z) : Prop := forall s a s', m s = Ok (a, s') -> f a + left s' <= left s.

Lemma costs_ends : forall A (m : M A) f, pays m f -> ends m -> costs m f.
Proof. intros A m f P E s a s' H. apply (P s a s' H). eapply E. exact H. Qed.

(** The nodes of 2.2 files: only the last one can be cut short. *)
Lemma nodes22_costs : forall (ascii : bool) n, costs (if ascii then v22_load_nodes_ascii c n else v22_load_nodes_binary c n)
  (fun n' => weigh tags_weight (n_blocks n') - weigh tags_weight (n_blocks n)).
Proof.
  assert (W : forall n num rows, weigh tags_weight (n_blocks (v22_add_block n num rows (n_blocks n))) - weigh tags_weight (n_blocks n) = zlen rows).
  { intros. unfold v22_add_block. prj. rewrite weigh_app, weigh_cons, weigh_nil. unfold tags_weight at 2. prj. unfold zlen. rewrite map_length. lia. }
  intros [|] n.
  - apply costs_ends.
    + unfold v22_load_nodes_ascii. pay. eapply pays_bind with (f := zlen); [apply pays_ones|intro; apply pays_ret; rewrite W; lia].
      intro x. unfold v22_node_ascii. pay. paid.
    + unfold v22_load_nodes_ascii. do 2 (apply ends_bind; intro). apply ends_first; [apply ends_assert|intro].
      apply keeps_bind; [apply keeps_lift|intro]. apply keeps_bind; [|intro; apply keeps_ret]. apply keeps_mapM. intro x. apply ends_keeps.
      unfold v22_node_ascii. last_assert.
  - assert (R : forall l, costs (mapM (v22_node_binary c) l) (fun rows => zlen rows - 1)).
    { assert (P1 : forall x, pays (v22_node_binary c x) (fun _ => 1)).
      { intro x. unfold v22_node_binary. pay. paid. match goal with |- context [zlen ?a] => pose proof (zlen_pos _ a) end. lia. }
      assert (M1 : forall x, mono (v22_node_binary c x)) by (intro; unfold v22_node_binary; mono_go).
      induction l as [|x l IH]; intros s r s' E.
      - injection E as <- <-. change (zlen []) with 0. lia.
      - cbn [mapM] in E. unfold bind in E. destruct (v22_node_binary c x s) as [[y s1]| | | |] eqn:E1; try discriminate.
        destruct (mapM (v22_node_binary c) l s1) as [[ys s2]| | | |] eqn:E2; try discriminate. injection E as <- <-. rewrite zlen_cons.
        pose proof (left_adv _ _ (M1 x _ _ _ E1)) as L1. destruct l as [|x2 l].
        + injection E2 as <- <-. change (zlen []) with 0. lia.
        + assert (G : good s1 = true).
          { cbn [mapM] in E2. unfold bind in E2. destruct (v22_node_binary c x2 s1) as [[y2 s3]| | | |] eqn:E3; try discriminate.
            unfold v22_node_binary, bind in E3. unfold assert_good at 1, massert at 1 in E3. rewrite D in E3. destruct (good s1); [reflexivity|discriminate]. }
          destruct (P1 x _ _ _ E1 G) as (_ & L2). specialize (IH _ _ _ E2). cbv beta in IH. lia. }
    intros s n' s' E. unfold v22_load_nodes_binary in E.
    unfold bind at 1 in E. unfold lift at 1 in E. destruct (can_hold c sz_NodeBlock _ _); try discriminate.
    unfold bind at 1 in E. destruct (op (rd_size 0) s) as [[num s1]| | | |] eqn:E1; try discriminate.
    unfold bind at 1 in E. destruct (assert_good c s1) as [[[] s2]| | | |] eqn:E2; try discriminate.
    assert (G2 := ends_assert _ _ _ E2). assert (s2 = s1) as ->.
    { unfold assert_good, massert in E2. rewrite D in E2. destruct (good s1); [|discriminate]. injection E2 as <-. reflexivity. }
    destruct (pays_size 0 _ _ _ E1 G2) as (_ & L1).
    unfold bind at 1 in E. unfold lift at 1 in E. destruct (v22_resizes c num); try discriminate.
    unfold bind at 1 in E. destruct (op eat1 s1) as [[u3 s3]| | | |] eqn:E3; try discriminate.
    pose proof (left_adv _ _ (mono_op_eat1 _ _ _ E3)) as L3.
    unfold bind at 1 in E. destruct (mapM (v22_node_binary c) _ s3) as [[rows s4]| | | |] eqn:E4; try discriminate.
    injection E as <- <-. apply R in E4. rewrite W. lia.
Qed.

(** ** One section *)

Definition groups_weight (s : MshSpec) : Z := weigh group_weight (physical_groups s).
Definition all_data_weight (s : MshSpec) : Z :=
  weigh data_weight (node_data s) + weigh data_weight (element_data s) + weigh data_weight (element_node_data s).

Lemma weigh_nonneg : forall A (f : A -> Z) l, (forall x, 0 <= f x) -> 0 <= weigh f l.
Proof. intros A f l H. induction l as [|x l IH]; [reflexivity|]. rewrite weigh_cons. specialize (H x). lia. Qed.

Lemma weigh_plus : forall A (f g : A -> Z) l, weigh (fun x => f x + g x) l = weigh f l + weigh g l.
Proof. intros A f g l. induction l as [|x l IH]; [reflexivity|]. rewrite !weigh_cons, IH. lia. Qed.

Lemma common_split : forall s, common_weight s = groups_weight s + weigh tags_weight (n_blocks (nodes s)) + all_data_weight s.
Proof. reflexivity. Qed.
Lemma mesh_split : forall s, mesh_weight s = entities_weight (entities s) + weigh (fun b => 4 + zlen (nb_data b)) (n_blocks (nodes s)) +
  weigh elements_weight (e_blocks (elements s)).
Proof. reflexivity. Qed.

Lemma groups_nonneg : forall s, 0 <= groups_weight s.
Proof. intro s. apply weigh_nonneg. intro g. unfold group_weight, name_weight. lia. Qed.
Lemma tags_nonneg : forall l, 0 <= weigh tags_weight l.
Proof. intro l. apply weigh_nonneg. intro b. apply zlen_pos. Qed.
Lemma coords_nonneg : forall l, 0 <= weigh (fun b => 4 + zlen (nb_data b)) l.
Proof. intro l. apply weigh_nonneg. intro b. pose proof (zlen_pos _ (nb_data b)). lia. Qed.
Lemma elements_nonneg : forall l, 0 <= weigh elements_weight l.
Proof. intro l. apply weigh_nonneg. intro b. unfold elements_weight. pose proof (zlen_pos _ (eb_data b)). lia. Qed.
Lemma entities_nonneg : forall e, 0 <= entities_weight e.
Proof.
  intro e. unfold entities_weight. assert (P : 0 <= weigh point_weight (points e)).
  { apply weigh_nonneg. intro p. unfold point_weight. pose proof (zlen_pos _ (pe_phys p)). lia. }
  assert (Q : forall l, 0 <= weigh entity_weight l).
  { intro l. apply weigh_nonneg. intro p. unfold entity_weight. pose proof (zlen_pos _ (en_phys p)). pose proof (zlen_pos _ (en_bnd p)). lia. }
  pose proof (Q (curves_e e)). pose proof (Q (surfaces_e e)). pose proof (Q (volumes_e e)). lia.
Qed.

(** What a section leaves alone. *)
Definition same_common (s s' : MshSpec) : Prop := physical_groups s' = physical_groups s /\ nodes s' = nodes s /\
  node_data s' = node_data s /\ element_data s' = element_data s /\ element_node_data s' = element_node_data s.
Definition same_all (s s' : MshSpec) : Prop := same_common s s' /\ entities s' = entities s /\ elements s' = elements s.

Lemma same_common_weight : forall s s', same_common s s' -> common_weight s' = common_weight s.
Proof. intros s s' (E1 & E2 & E3 & E4 & E5). unfold common_weight. rewrite E1, E2, E3, E4, E5. reflexivity. Qed.
Lemma same_mesh_weight : forall s s', same_all s s' -> mesh_weight s' = mesh_weight s.
Proof. intros s s' ((_ & E2 & _) & E3 & E4). unfold mesh_weight. rewrite E2, E3, E4. reflexivity. Qed.

Definition section_costs (w : MshSpec -> Z) (m : M MshSpec) (spec : MshSpec) : Prop :=
  costs m (fun s => w s - w spec).

Lemma free_common : forall m spec, mono m -> post m (same_common spec) -> section_costs common_weight m spec.
Proof. intros m spec Mm P s s1 s' E. rewrite (same_common_weight _ _ (P _ _ _ E)). pose proof (left_adv _ _ (Mm _ _ _ E)). lia. Qed.
Lemma free_mesh : forall m spec, mono m -> post m (same_all spec) -> section_costs (fun s => common_weight s + mesh_weight s) m spec.
Proof.
  intros m spec Mm P s s1 s' E. pose proof (P _ _ _ E) as F. rewrite (same_common_weight _ _ (proj1 F)), (same_mesh_weight _ _ F).
  pose proof (left_adv _ _ (Mm _ _ _ E)). lia.
Qed.

Lemma costs_bind_ret : forall A B (m : M A) (k : A -> B) f h, costs m f -> (forall a, h (k a) <= f a) -> costs (bind m (fun a => ret (k a))) h.
Proof.
  intros A B m k f h C H s b s' E. unfold bind in E. destruct (m s) as [[a s1]| | | |] eqn:Em; try discriminate.
  injection E as <- <-. specialize (C _ _ _ Em). specialize (H a). lia.
Qed.

Lemma costs_le : forall A (m : M A) f h, costs m f -> (forall a, h a <= f a) -> costs m h.
Proof. intros A m f h C H s a s' E. specialize (C _ _ _ E). specialize (H a). lia. Qed.

Lemma groups_frame : forall spec, post (load_physical_groups c spec) (fun s => exists gs, s = set_physical_groups gs spec).
Proof. intro. unfold load_physical_groups. do 5 (apply post_bind_any; intro). apply post_ret. eauto. Qed.

Lemma groups_cost : forall spec, costs (load_physical_groups c spec) (fun s => groups_weight s - groups_weight spec).
Proof.
  intro spec. eapply costs_le; [apply costs_ends; [apply groups_pays|apply groups_ends]|].
  intro s. cbv beta. fold (groups_weight s). pose proof (groups_nonneg spec). lia.
Qed.

Lemma groups_section : forall spec, section_costs common_weight (load_physical_groups c spec) spec /\
  section_costs (fun s => common_weight s + mesh_weight s) (load_physical_groups c spec) spec.
Proof.
  intro spec. split; intros s s1 s' E; pose proof (groups_cost spec _ _ _ E) as C; cbv beta in C;
    destruct (groups_frame spec _ _ _ E) as (gs & ->).
  - rewrite !common_split. change (nodes (set_physical_groups gs spec)) with (nodes spec).
    change (all_data_weight (set_physical_groups gs spec)) with (all_data_weight spec). lia.
  - rewrite !common_split. change (mesh_weight (set_physical_groups gs spec)) with (mesh_weight spec).
    change (nodes (set_physical_groups gs spec)) with (nodes spec).
    change (all_data_weight (set_physical_groups gs spec)) with (all_data_weight spec). lia.
Qed.

Lemma data_section : forall m spec (put : Data -> MshSpec) v bin end_, m = bind (load_data c v bin end_) (fun d => ret (put d)) ->
  (forall d, common_weight (put d) = common_weight spec + data_weight d /\ mesh_weight (put d) = mesh_weight spec) ->
  section_costs common_weight m spec /\ section_costs (fun s => common_weight s + mesh_weight s) m spec.
Proof.
  intros m spec put v bin end_ -> H. assert (C := costs_ends _ _ _ (data_pays c v bin end_) (data_ends v bin end_)).
  split; apply (costs_bind_ret _ _ _ put data_weight); try exact C; intro d; destruct (H d) as (-> & E); try rewrite E; lia.
Qed.

Lemma weigh_last : forall A (f : A -> Z) l x, weigh f (l ++ [x]) = weigh f l + f x.
Proof. intros. rewrite weigh_app, weigh_cons, weigh_nil. lia. Qed.

Lemma node_data_section : forall spec, section_costs common_weight (load_node_data c spec) spec /\
  section_costs (fun s => common_weight s + mesh_weight s) (load_node_data c spec) spec.
Proof.
  intro spec. eapply (data_section _ spec (fun d => set_node_data (node_data spec ++ [d]) spec)); [reflexivity|]. intro d. split; [|reflexivity].
  rewrite !common_split. unfold all_data_weight, groups_weight, set_node_data. cbn [physical_groups nodes node_data element_data element_node_data].
  rewrite weigh_last. lia.
Qed.
Lemma element_data_section : forall spec, section_costs common_weight (load_element_data c spec) spec /\
  section_costs (fun s => common_weight s + mesh_weight s) (load_element_data c spec) spec.
Proof.
  intro spec. eapply (data_section _ spec (fun d => set_element_data (element_data spec ++ [d]) spec)); [reflexivity|]. intro d. split; [|reflexivity].
  rewrite !common_split. unfold all_data_weight, groups_weight, set_element_data. cbn [physical_groups nodes node_data element_data element_node_data].
  rewrite weigh_last. lia.
Qed.
Lemma element_node_data_section : forall spec, section_costs common_weight (load_element_node_data c spec) spec /\
  section_costs (fun s => common_weight s + mesh_weight s) (load_element_node_data c spec) spec.
Proof.
  intro spec. eapply (data_section _ spec (fun d => set_element_node_data (element_node_data spec ++ [d]) spec)); [reflexivity|]. intro d. split; [|reflexivity].
  rewrite !common_split. unfold all_data_weight, groups_weight, set_element_node_data. cbn [physical_groups nodes node_data element_data element_node_data].
  rewrite weigh_last. lia.
Qed.

Lemma block_split : forall l, weigh block_weight l = weigh tags_weight l + weigh (fun b => 4 + zlen (nb_data b)) l.
Proof. intro l. unfold block_weight. rewrite <- weigh_plus. reflexivity. Qed.

Lemma nodes41_section : forall spec, version (mesh_format spec) = str "4.1" ->
  section_costs (fun s => common_weight s + mesh_weight s) (load_nodes c spec) spec.
Proof.
  intros spec Hv. unfold load_nodes. rewrite Hv. change (bytes_eqb (str "4.1") v41s) with true. cbv iota.
  apply (costs_bind_ret _ _ _ (fun n => set_nodes n spec) (fun n' => weigh block_weight (n_blocks n'))); [apply costs_ends; [apply nodes41_pays|apply nodes41_ends]|].
  intro n. rewrite block_split, !common_split, !mesh_split. change (nodes (set_nodes n spec)) with n.
  change (groups_weight (set_nodes n spec)) with (groups_weight spec). change (all_data_weight (set_nodes n spec)) with (all_data_weight spec).
  change (entities (set_nodes n spec)) with (entities spec). change (elements (set_nodes n spec)) with (elements spec).
  pose proof (tags_nonneg (n_blocks (nodes spec))). pose proof (coords_nonneg (n_blocks (nodes spec))). lia.
Qed.

Lemma nodes_section : forall spec, section_costs common_weight (load_nodes c spec) spec.
Proof.
  intro spec. unfold load_nodes. cbv zeta. set (n0 := match n_blocks (nodes spec) with [] => _ | _ => _ end).
  assert (E0 : n_blocks n0 = n_blocks (nodes spec)) by (unfold n0; destruct (n_blocks (nodes spec)) eqn:E; [reflexivity|exact E]).
  eapply (costs_bind_ret _ _ _ (fun n => set_nodes n spec) (fun n' => weigh tags_weight (n_blocks n') - weigh tags_weight (n_blocks (nodes spec)))).
  - destruct (bytes_eqb _ v41s); [|destruct (bytes_eqb _ v22s); [|intros s a s' E; discriminate]].
    + eapply costs_le; [apply costs_ends; [apply nodes41_pays|apply nodes41_ends]|]. intro n. cbv beta. rewrite block_split.
      pose proof (tags_nonneg (n_blocks (nodes spec))). pose proof (coords_nonneg (n_blocks n)). lia.
    + rewrite <- E0. apply nodes22_costs.
  - intro n. rewrite !common_split. change (nodes (set_nodes n spec)) with n.
    change (groups_weight (set_nodes n spec)) with (groups_weight spec). change (all_data_weight (set_nodes n spec)) with (all_data_weight spec). lia.
Qed.

Lemma elements41_section : forall spec, version (mesh_format spec) = str "4.1" ->
  section_costs (fun s => common_weight s + mesh_weight s) (load_elements c spec) spec.
Proof.
  intros spec Hv. unfold load_elements. rewrite Hv. change (bytes_eqb (str "4.1") v41s) with true. cbv iota.
  apply (costs_bind_ret _ _ _ (fun n => set_elements n spec) (fun n' => weigh elements_weight (e_blocks n'))); [apply costs_ends; [apply elements41_pays|apply elements41_ends]|].
  intro n. rewrite !common_split, !mesh_split. change (nodes (set_elements n spec)) with (nodes spec).
  change (groups_weight (set_elements n spec)) with (groups_weight spec). change (all_data_weight (set_elements n spec)) with (all_data_weight spec).
  change (entities (set_elements n spec)) with (entities spec). change (elements (set_elements n spec)) with n.
  pose proof (elements_nonneg (e_blocks (elements spec))). lia.
Qed.

Lemma entities_section : forall spec, section_costs (fun s => common_weight s + mesh_weight s) (load_entities c spec) spec.
Proof.
  intro spec. unfold load_entities. cbv zeta. destruct (bytes_eqb _ v41s); [|destruct (bytes_eqb _ v22s)].
  - apply (costs_bind_ret _ _ _ (fun e => set_entities e spec) entities_weight); [apply costs_ends; [apply entities41_pays|apply entities41_ends]|].
    intro n. rewrite !common_split, !mesh_split. change (nodes (set_entities n spec)) with (nodes spec).
    change (groups_weight (set_entities n spec)) with (groups_weight spec). change (all_data_weight (set_entities n spec)) with (all_data_weight spec).
    change (entities (set_entities n spec)) with n. change (elements (set_entities n spec)) with (elements spec).
    pose proof (entities_nonneg (entities spec)). lia.
  - intros s a s' E. discriminate.
  - intros s a s' E. injection E as <- <-. lia.
Qed.

Lemma elements_section : forall spec, section_costs common_weight (load_elements c spec) spec.
Proof.
  intro spec. apply free_common; [apply mono_elements|]. unfold load_elements. cbv zeta.
  destruct (bytes_eqb _ v41s); [|destruct (bytes_eqb _ v22s)].
  - apply post_bind_any. intro. apply post_ret. repeat split.
  - apply post_bind_any. intro. apply post_ret. repeat split.
  - apply post_throw.
Qed.

Lemma dispatch_common : forall name spec, section_costs common_weight (dispatch c name spec) spec.
Proof.
  intros name spec. assert (T : same_common spec spec) by repeat split. unfold dispatch.
  destruct (bytes_eqb name (str "$MeshFormat")); [apply free_common; [apply mono_mesh_format|unfold load_mesh_format; post_frame ltac:(exact T)]|].
  destruct (bytes_eqb name (str "$Entities")); [apply free_common; [apply mono_entities|unfold load_entities; post_frame ltac:(exact T)]|].
  destruct (bytes_eqb name (str "$PhysicalNames")); [apply groups_section|].
  destruct (bytes_eqb name (str "$Nodes")); [apply nodes_section|].
  destruct (bytes_eqb name (str "$Elements")); [apply elements_section|].
  destruct (bytes_eqb name (str "$NodeData")); [apply node_data_section|].
  destruct (bytes_eqb name (str "$ElementData")); [apply element_data_section|].
  destruct (bytes_eqb name (str "$ElementNodeData")); [apply element_node_data_section|].
  destruct (bytes_eqb name (str "$NanoSplineFormat")); [apply free_common; [unfold load_nanospline_format; mono_go|unfold load_nanospline_format; post_frame ltac:(exact T)]|].
  destruct (bytes_eqb name (str "$Curves")); [apply free_common; [apply mono_curves|unfold load_curves; post_frame ltac:(exact T)]|].
  destruct (bytes_eqb name (str "$Patches")); [apply free_common; [apply mono_patches|unfold load_patches; post_frame ltac:(exact T)]|].
  apply free_common; [apply mono_ret|apply post_ret; exact T].
Qed.

Lemma dispatch_mesh : forall name spec, (name = str "$Nodes" \/ name = str "$Elements" -> version (mesh_format spec) = str "4.1") ->
  section_costs (fun s => common_weight s + mesh_weight s) (dispatch c name spec) spec.
Proof.
  intros name spec Hv. assert (T : same_all spec spec) by repeat split. unfold dispatch.
  destruct (bytes_eqb name (str "$MeshFormat")); [apply free_mesh; [apply mono_mesh_format|unfold load_mesh_format; post_frame ltac:(exact T)]|].
  destruct (bytes_eqb name (str "$Entities")); [apply entities_section|].
  destruct (bytes_eqb name (str "$PhysicalNames")); [apply groups_section|].
  destruct (bytes_eqb name (str "$Nodes")) eqn:EN; [apply nodes41_section; apply Hv; left; apply bytes_eqb_eq; exact EN|].
  destruct (bytes_eqb name (str "$Elements")) eqn:EE; [apply elements41_section; apply Hv; right; apply bytes_eqb_eq; exact EE|].
  destruct (bytes_eqb name (str "$NodeData")); [apply node_data_section|].
  destruct (bytes_eqb name (str "$ElementData")); [apply element_data_section|].
  destruct (bytes_eqb name (str "$ElementNodeData")); [apply element_node_data_section|].
  destruct (bytes_eqb name (str "$NanoSplineFormat")); [apply free_mesh; [unfold load_nanospline_format; mono_go|unfold load_nanospline_format; post_frame ltac:(exact T)]|].
  destruct (bytes_eqb name (str "$Curves")); [apply free_mesh; [apply mono_curves|unfold load_curves; post_frame ltac:(exact T)]|].
  destruct (bytes_eqb name (str "$Patches")); [apply free_mesh; [apply mono_patches|unfold load_patches; post_frame ltac:(exact T)]|].
  apply free_mesh; [apply mono_ret|apply post_ret; exact T].
Qed.

(** ** Whole files *)

Lemma token_left : forall o s b s', rd_token o s = (b, s') -> left s' <= left s.
Proof. intros o s b s' E. apply left_adv. pose proof (adv_rd_token o s) as A. rewrite E in A. exact A. Qed.

Lemma loop_costs : forall (w : MshSpec -> Z) b, w spec_default = 0 ->
  (forall name spec s, meets c b name spec s -> section_costs w (dispatch c name spec) spec) ->
  forall p, reached c b p -> w (spec_of p) + left (stream_of p) <= zlen b.
Proof.
  intros w b H0 HD.
  assert (G : forall n p q, steps c n p q -> reached c b p -> w (spec_of p) + left (stream_of p) <= zlen b ->
            w (spec_of q) + left (stream_of q) <= zlen b).
  { intros n p q H. induction H as [p|n p q r HS H IH]; intros R Hp; [exact Hp|].
    apply IH; [exact (reached_step _ _ _ _ R HS)|].
    destruct HS as [spec s buf s1 E0 ET IS|spec s buf s1 spec' s2 E0 ET IS ED
                |flag buf spec s buf' s' E0 NE ET|flag buf spec s C]; cbn [spec_of stream_of] in *; try exact Hp.
    - apply token_left in ET. lia.
    - assert (ME : meets c b buf spec s1) by (exists s; auto). pose proof (HD _ _ _ ME _ _ _ ED) as L. cbv beta in L. apply token_left in ET. lia.
    - apply token_left in ET. lia. }
  intros p (n & R). apply (G n _ _ R); [exists O; constructor|]. cbn [start spec_of stream_of]. rewrite H0. unfold left. cbn [opened IStream.rest]. lia.
Qed.

Lemma raw_common : forall b raw, ends_with c b raw -> common_weight raw <= zlen b.
Proof.
  intros b raw (s & R & _). pose proof (loop_costs common_weight b eq_refl (fun name spec s0 _ => dispatch_common name spec) _ R) as L.
  cbn [spec_of stream_of] in L. pose proof (zlen_pos _ (rest s)). unfold left in L. lia.
Qed.

Lemma raw_mesh : forall b raw, (forall name spec s, meets c b name spec s -> name = str "$Nodes" \/ name = str "$Elements" ->
    version (mesh_format spec) = str "4.1") ->
  ends_with c b raw -> common_weight raw + mesh_weight raw <= zlen b.
Proof.
  intros b raw Hv (s & R & _).
  pose proof (loop_costs (fun s => common_weight s + mesh_weight s) b eq_refl (fun name spec s0 H => dispatch_mesh name spec (Hv _ _ _ H)) _ R) as L.
  cbn [spec_of stream_of] in L. pose proof (zlen_pos _ (rest s)). unfold left in L. lia.
Qed.
End Debug.

(** Regrouping makes no nodes. *)

Lemma at_in : forall A (l : list A) i x, at_ l i = Ok x -> 0 <= i < zlen l.
Proof.
  intros A l i x E. unfold at_ in E. destruct (i <? 0) eqn:L; [discriminate|]. apply Z.ltb_ge in L.
  destruct (nth_error l (Z.to_nat i)) eqn:N; [|discriminate]. assert (Z.to_nat i < List.length l)%nat by (apply nth_error_Some; congruence).
  unfold zlen. lia.
Qed.

Lemma regroup_node_weight : forall c size mn a b i st st', regroup_node c size mn a b i st = Ok st' ->
  i < zlen (nb_tags b) /\ weigh tags_weight (rg_blocks st') = weigh tags_weight (rg_blocks st) + 1.
Proof.
  intros c size mn a b i st st' E. unfold regroup_node in E. destruct (at_ (nb_tags b) i) as [t| | | |] eqn:EA; try discriminate.
  apply at_in in EA. split; [lia|]. cbn [obind] in E. destruct (size <=? _); [discriminate|]. destruct (a _) as [dim tag].
  set (st1 := if negb (dim =? rg_dim st) || negb (tag =? rg_tag st) then _ else st) in E.
  assert (W1 : weigh tags_weight (rg_blocks st1) = weigh tags_weight (rg_blocks st)).
  { unfold st1. destruct (_ || _); [|reflexivity]. cbn [rg_blocks]. rewrite weigh_cons. reflexivity. }
  destruct (rg_blocks st1) as [|cur others] eqn:ER; [destruct (ndebug c); discriminate|].
  repeat match type of E with obind ?x _ = _ => destruct x; cbn [obind] in E; try discriminate end.
  injection E as <-. cbn [rg_blocks]. rewrite <- W1, !weigh_cons. unfold tags_weight at 1 3. unfold push_node. prj.
  unfold zlen. rewrite app_length. cbn [List.length]. lia.
Qed.

Lemma regroup_block_weight : forall c size mn a b st st', ofold (regroup_node c size mn a b) (iota (nb_num b)) st = Ok st' ->
  weigh tags_weight (rg_blocks st') <= weigh tags_weight (rg_blocks st) + tags_weight b.
Proof.
  intros c size mn a b st st' E. unfold iota in E.
  assert (G : forall n k st st', ofold (regroup_node c size mn a b) (map Z.of_nat (seq k n)) st = Ok st' ->
            weigh tags_weight (rg_blocks st') = weigh tags_weight (rg_blocks st) + Z.of_nat n /\ (n = O \/ Z.of_nat (k + n) <= tags_weight b)).
  { induction n as [|n IH]; intros k s s' H; cbn [seq map ofold] in H.
    - injection H as <-. split; [lia|auto].
    - destruct (regroup_node c size mn a b (Z.of_nat k) s) as [s1| | | |] eqn:E1; try discriminate. cbn [obind] in H.
      apply regroup_node_weight in E1. destruct E1 as (L1 & W1). apply IH in H. destruct H as (W2 & L2). split; [lia|].
      right. unfold tags_weight in *. destruct L2 as [->|L2]; lia. }
  apply G in E. destruct E as (W & [Z0|L]); [|cbn [plus] in L; lia]. pose proof (zlen_pos _ (nb_tags b)). unfold tags_weight at 3. lia.
Qed.

Lemma weigh_rev : forall A (f : A -> Z) l, weigh f (rev l) = weigh f l.
Proof. intros A f l. induction l as [|x l IH]; [reflexivity|]. cbn [rev]. rewrite weigh_app, IH, !weigh_cons, weigh_nil. lia. Qed.

Lemma post_common : forall c raw s, post_process c raw = Ok s -> common_weight s <= common_weight raw.
Proof.
  intros c raw s E. unfold post_process in E. destruct (bytes_eqb _ _); [|injection E as <-; lia].
  destruct (regroup_nodes c raw) as [m| | | |] eqn:EN; try discriminate. cbn [obind] in E.
  assert (EM : common_weight s = common_weight m).
  { unfold regroup_elements in E. cbv zeta in E. repeat match type of E with obind ?x _ = _ => destruct x; cbn [obind] in E; try discriminate end.
    injection E as <-. reflexivity. }
  rewrite EM. unfold regroup_nodes in EN. cbv zeta in EN.
  destruct (can_hold c sz_size _ _) as [[]| | | |]; cbn [obind] in EN; try discriminate.
  destruct (ofold (mark_block _ _) _ _) as [a| | | |]; cbn [obind] in EN; try discriminate.
  match type of EN with obind (ofold ?f ?l ?s0) _ = _ => destruct (ofold f l s0) as [st| | | |] eqn:EF; cbn [obind] in EN; try discriminate end.
  injection EN as <-. rewrite !common_split. cbn [nodes set_nodes n_blocks].
  match goal with |- context [groups_weight (set_nodes ?n raw)] => change (groups_weight (set_nodes n raw)) with (groups_weight raw);
    change (all_data_weight (set_nodes n raw)) with (all_data_weight raw); change (nodes (set_nodes n raw)) with n end. prj.
  assert (W : forall l, weigh tags_weight (map set_count l) = weigh tags_weight l).
  { induction l as [|x l IH]; [reflexivity|]. cbn [map]. rewrite !weigh_cons, IH. reflexivity. }
  rewrite W, weigh_rev.
  assert (G : forall l st st', ofold (fun b st => ofold (regroup_node c (to_size (n_max (nodes raw) - n_min (nodes raw) + 1)) (n_min (nodes raw)) a b)
              (iota (nb_num b)) st) l st = Ok st' -> weigh tags_weight (rg_blocks st') <= weigh tags_weight (rg_blocks st) + weigh tags_weight l).
  { induction l as [|x l IH]; intros s0 s1 H; cbn [ofold] in H.
    - injection H as <-. rewrite weigh_nil. lia.
    - destruct (ofold (regroup_node _ _ _ a x) _ s0) as [s2| | | |] eqn:E1; cbn [obind] in H; try discriminate.
      apply regroup_block_weight in E1. apply IH in H. rewrite weigh_cons. lia. }
  apply G in EF. cbn [rg_blocks] in EF. rewrite weigh_nil in EF. lia.
Qed.

Theorem common_fits : forall c b s, ndebug c = false -> load_msh c b = Ok s -> common_weight s <= zlen b.
Proof.
  intros c b s D E. destruct (load_ends c b s E) as (raw & HE & HP). pose proof (raw_common c D b raw HE). pose proof (post_common c raw s HP). lia.
Qed.

Theorem mesh_fits : forall c b s, ndebug c = false -> all_41 c b -> load_msh c b = Ok s -> common_weight s + mesh_weight s <= zlen b.
Proof.
  intros c b s D (H1 & H2) E. destruct (load_ends c b s E) as (raw & HE & HP). pose proof (raw_mesh c D b raw H1 HE) as L.
  destruct HE as (s0 & R & EE). pose proof (H2 raw s0 R EE) as N. unfold post_process in HP.
  replace (bytes_eqb (version (mesh_format raw)) v22s) with false in HP; [injection HP as <-; exact L|].
  symmetry. apply bytes_eqb_neq. exact N.
Qed.
