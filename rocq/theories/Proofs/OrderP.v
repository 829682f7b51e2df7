(** Every read leaves the end of what was there. *)

From Verif Require Import Model.LoadMsh Spec.Order Proofs.BytesP Proofs.Fuel Proofs.SpacingP Proofs.File22P.

Ltac Zify.zify_post_hook ::= idtac.

Definition tl (b r : bytes) : Prop := exists u, b = u ++ r.

Lemma tl_refl : forall b, tl b b.
Proof. intro b. exists []. reflexivity. Qed.
Lemma tl_nil : forall b, tl b [].
Proof. intro b. exists b. symmetry. apply app_nil_r. Qed.
Lemma tl_trans : forall a b c, tl a b -> tl b c -> tl a c.
Proof. intros a b c [u ->] [v ->]. exists (u ++ v). apply app_assoc. Qed.
Lemma tl_cons : forall x a b, tl a b -> tl (x :: a) b.
Proof. intros x a b [u ->]. exists (x :: u). reflexivity. Qed.
Lemma tl_skipn : forall n b, tl b (skipn n b).
Proof. intros n b. exists (firstn n b). symmetry. apply firstn_skipn. Qed.
#[local] Hint Resolve tl_refl tl_nil tl_cons tl_skipn : tl.

(** ** Scanners *)

Lemma skip_ws_split : forall b, exists w, Forall (fun x => is_ws x = true) w /\ b = w ++ skip_ws b.
Proof.
  induction b as [|x b IH]; cbn [skip_ws]; [exists []; split; [constructor|reflexivity]|].
  destruct (is_ws x) eqn:E; [|exists []; split; [constructor|reflexivity]].
  destruct IH as (w & W & H). exists (x :: w). split; [constructor; assumption|]. cbn [app]. rewrite <- H. reflexivity.
Qed.
Lemma tl_ws : forall b, tl b (skip_ws b).
Proof. intro b. destruct (skip_ws_split b) as (w & _ & H). exists w. exact H. Qed.

Lemma take_token_split : forall b t r, take_token b = (t, r) -> b = t ++ r.
Proof.
  induction b as [|x b IH]; intros t r H; cbn [take_token] in H; [injection H as <- <-; reflexivity|].
  destruct (is_ws x); [injection H as <- <-; reflexivity|]. destruct (take_token b) as [t' r'].
  injection H as <- <-. cbn [app]. f_equal. apply IH. reflexivity.
Qed.

Lemma tl_digits : forall b ds r, take_digits b = (ds, r) -> tl b r.
Proof.
  induction b as [|x b IH]; intros ds r H; cbn [take_digits] in H; [injection H as <- <-; auto with tl|].
  destruct (digit_of x); [|injection H as <- <-; auto with tl]. destruct (take_digits b) as [t' r'].
  injection H as <- <-. eauto with tl.
Qed.

Lemma tl_sign : forall b n r, take_sign b = (n, r) -> tl b r.
Proof. intros [|x b] n r H; [injection H as <- <-; auto with tl|]. destruct x; injection H as <- <-; auto with tl. Qed.

Lemma tl_int : forall b v f r, extract_int b = (v, f, r) -> tl b r.
Proof.
  intros b v f r H. unfold extract_int in H. destruct (take_sign b) as [n b1] eqn:E1. destruct (take_digits b1) as [ds b2] eqn:E2.
  assert (T : tl b b2) by (eapply tl_trans; [eapply tl_sign|eapply tl_digits]; eassumption).
  destruct ds; [injection H as <- <- <-; exact T|]. cbv zeta in H.
  destruct (_ <? INT_MIN); [injection H as <- <- <-; exact T|]. destruct (INT_MAX <? _); injection H as <- <- <-; exact T.
Qed.

Lemma tl_size : forall b v f r, extract_size b = (v, f, r) -> tl b r.
Proof.
  intros b v f r H. unfold extract_size in H. destruct (take_sign b) as [n b1] eqn:E1. destruct (take_digits b1) as [ds b2] eqn:E2.
  assert (T : tl b b2) by (eapply tl_trans; [eapply tl_sign|eapply tl_digits]; eassumption).
  destruct ds; [injection H as <- <- <-; exact T|]. cbv zeta in H. destruct (SIZE_MAX <? _); injection H as <- <- <-; exact T.
Qed.

Lemma tl_float : forall n b, (List.length b <= n)%nat -> forall fm fd fs t r, scan_float fm fd fs b = (t, r) -> tl b r.
Proof.
  induction n as [|n IH]; intros b L fm fd fs t r H; (destruct b as [|x b]; [injection H as <- <-; auto with tl|]); [cbn in L; lia|].
  cbn in L. cbn [scan_float] in H.
  destruct (is_digit x). { destruct (scan_float true fd fs b) as [t' r'] eqn:E. injection H as <- <-. apply tl_cons. eapply IH; [|exact E]. lia. }
  destruct (_ && negb fd && negb fs). { destruct (scan_float fm true fs b) as [t' r'] eqn:E. injection H as <- <-. apply tl_cons. eapply IH; [|exact E]. lia. }
  destruct (_ && negb fs && fm); [|injection H as <- <-; auto with tl].
  destruct b as [|y b]. { destruct (scan_float fm fd true []) as [t' r'] eqn:E. injection H as <- <-. apply tl_cons. eapply IH; [|exact E]. cbn. lia. }
  assert (G : forall d, (let (t, r) := scan_float fm fd true b in (d t, r)) = (t, r) -> tl (x :: y :: b) r).
  { intros d G. destruct (scan_float fm fd true b) as [t' r'] eqn:E. injection G as _ <-. apply tl_cons, tl_cons. eapply IH; [|exact E]. cbn in L. lia. }
  assert (G' : (let (t, r) := scan_float fm fd true (y :: b) in (x65 :: t, r)) = (t, r) -> tl (x :: y :: b) r).
  { intro G'. destruct (scan_float fm fd true (y :: b)) as [t' r'] eqn:E. injection G' as _ <-. apply tl_cons. eapply IH; [|exact E]. lia. }
  destruct y; try exact (G' H); [exact (G (fun t => x65 :: x2b :: t) H)|exact (G (fun t => x65 :: x2d :: t) H)].
Qed.

Lemma tl_double : forall b v f r, extract_double b = (v, f, r) -> tl b r.
Proof.
  intros b v f r H. unfold extract_double in H. destruct (take_sign b) as [n b1] eqn:E1.
  destruct (scan_float false false false b1) as [t b2] eqn:E2.
  assert (T : tl b b2) by (eapply tl_trans; [eapply tl_sign; eassumption|eapply tl_float; [apply le_n|eassumption]]).
  destruct (parse_dec t) as [[m e]|]; [|injection H as <- <- <-; exact T]. cbv zeta in H.
  destruct (inf_mag <=? round_dec m e); injection H as _ _ <-; exact T.
Qed.

Lemma tl_unquote : forall n b, (List.length b <= n)%nat -> forall t r, unquote b = (t, Some r) -> tl b r.
Proof.
  induction n as [|n IH]; intros b L t r H; (destruct b as [|x b]; [discriminate H|]); [cbn in L; lia|].
  cbn in L.
  assert (G : (let (t, r) := unquote b in (x :: t, r)) = (t, Some r) -> tl (x :: b) r).
  { intro G. destruct (unquote b) as [t' r'] eqn:E. injection G as _ ->. apply tl_cons. eapply IH; [|exact E]. lia. }
  destruct x; try exact (G H).
  - injection H as _ <-. auto with tl.
  - clear G. destruct b as [|y b]; [discriminate H|]. cbn [unquote] in H. destruct (unquote b) as [t' r'] eqn:E. injection H as _ ->.
    apply tl_cons, tl_cons. cbn in L. eapply IH; [|exact E]. lia.
Qed.

(** ** Streams *)

Definition fwd {A} (f : istream -> A * istream) : Prop := forall s, tl (rest s) (rest (snd (f s))).

Lemma rest_at_end : forall b s, rest (at_end b s) = b.
Proof. intros [|x b] s; reflexivity. Qed.

Lemma sentry_tl : forall s, tl (rest s) (rest (snd (sentry s))).
Proof.
  intro s. unfold sentry. destruct (good s); [|cbn; auto with tl]. destruct (skip_ws (rest s)) as [|x b] eqn:E; cbn; [auto with tl|].
  rewrite <- E. apply tl_ws.
Qed.

Lemma fwd_token : forall o, fwd (rd_token o).
Proof.
  intros o s. unfold rd_token. pose proof (sentry_tl s) as T. destruct (sentry s) as [[|] s1]; cbn [snd] in *; [|exact T].
  destruct (take_token (rest s1)) as [t r] eqn:E. cbn [snd]. rewrite rest_at_end. eapply tl_trans; [exact T|].
  exists t. exact (take_token_split _ _ _ E).
Qed.

Lemma fwd_num : forall A (ext : bytes -> A * bool * bytes) o, (forall b v f r, ext b = (v, f, r) -> tl b r) -> fwd (rd_num ext o).
Proof.
  intros A ext o H s. unfold rd_num. pose proof (sentry_tl s) as T. destruct (sentry s) as [[|] s1]; cbn [snd] in *; [|exact T].
  destruct (ext (rest s1)) as [[v f] r] eqn:E. cbv zeta. cbn [snd]. eapply tl_trans; [exact T|].
  destruct f; cbn [rest set_fail]; rewrite rest_at_end; exact (H _ _ _ _ E).
Qed.
Lemma fwd_num_opt : forall A (ext : bytes -> A * bool * bytes) o, (forall b v f r, ext b = (v, f, r) -> tl b r) -> fwd (rd_num_opt ext o).
Proof.
  intros A ext o H s. unfold rd_num_opt. pose proof (sentry_tl s) as T. destruct (sentry s) as [[|] s1]; cbn [snd] in *; [|exact T].
  destruct (ext (rest s1)) as [[v f] r] eqn:E. cbv zeta. cbn [snd]. eapply tl_trans; [exact T|].
  destruct f; cbn [rest set_fail]; rewrite rest_at_end; exact (H _ _ _ _ E).
Qed.

Lemma fwd_quoted : forall o, fwd (rd_quoted o).
Proof.
  intros o s. unfold rd_quoted. pose proof (sentry_tl s) as T. destruct (sentry s) as [[|] s1]; cbn [snd] in *; [|exact T].
  pose proof (fwd_token o s1) as K. destruct (rest s1) as [|x b] eqn:R; [eapply tl_trans; [exact T|exact K]|].
  assert (G : tl (rest s) (rest (snd (rd_token o s1)))) by (eapply tl_trans; [exact T|exact K]).
  destruct x; try exact G. clear G. eapply tl_trans; [exact T|]. destruct (unquote b) as [t [r|]] eqn:E; cbn; [|auto with tl].
  apply tl_cons. eapply tl_unquote; [apply le_n|exact E].
Qed.

Lemma noskip_rest : forall s, rest (snd (sentry_noskip s)) = rest s.
Proof. intro s. unfold sentry_noskip. destruct (good s); reflexivity. Qed.

Lemma peek_rest : forall s, rest (snd (peek s)) = rest s.
Proof.
  intro s. unfold peek. pose proof (noskip_rest s) as T. destruct (sentry_noskip s) as [[|] s1]; cbn [snd] in *; [|exact T].
  rewrite <- T. destruct (rest s1) eqn:E; cbn; auto.
Qed.

Lemma get_tl : forall s, tl (rest s) (rest (get_char s)).
Proof.
  intro s. unfold get_char. pose proof (noskip_rest s) as T. destruct (sentry_noskip s) as [[|] s1]; cbn [snd] in *; [|rewrite T; auto with tl].
  rewrite <- T. destruct (rest s1) eqn:E; cbn; auto with tl.
Qed.

Lemma raw_tl : forall o s, tl (rest s) (rest (snd (rd_raw o s))).
Proof.
  intros o s. unfold rd_raw. pose proof (noskip_rest s) as T. destruct (sentry_noskip s) as [[|] s1]; cbn [snd] in *; [|rewrite T; auto with tl].
  rewrite <- T. cbv zeta. destruct (_ <? _)%nat; cbn [snd rest with_rest]; auto with tl.
Qed.

Lemma fwd_raw_size : forall o, fwd (rd_raw_size o).
Proof. intros o s. unfold rd_raw_size. pose proof (raw_tl (le 8 o) s) as T. destruct (rd_raw (le 8 o) s) as [[b k] s']. exact T. Qed.
Lemma fwd_raw_int : forall o, fwd (rd_raw_int o).
Proof. intros o s. unfold rd_raw_int. pose proof (raw_tl (le 4 o) s) as T. destruct (rd_raw (le 4 o) s) as [[b k] s']. exact T. Qed.
Lemma fwd_raw_int_opt : forall o, fwd (rd_raw_int_opt o).
Proof.
  intros [o|] s; unfold rd_raw_int_opt.
  - pose proof (fwd_raw_int o s) as T. destruct (rd_raw_int o s) as [v s']. exact T.
  - pose proof (raw_tl (repeat x00 4) s) as T. destruct (rd_raw (repeat x00 4) s) as [[b k] s']. exact T.
Qed.
Lemma fwd_raw_size_opt : forall o, fwd (rd_raw_size_opt o).
Proof.
  intros [o|] s; unfold rd_raw_size_opt.
  - pose proof (fwd_raw_size o s) as T. destruct (rd_raw_size o s) as [v s']. exact T.
  - pose proof (raw_tl (repeat x00 8) s) as T. destruct (rd_raw (repeat x00 8) s) as [[b k] s']. exact T.
Qed.

Lemma fwd_eat1 : fwd eat1.
Proof.
  intro s. unfold eat1. pose proof (peek_rest s) as T. destruct (peek s) as [o s1]. cbn [snd] in T.
  destruct (is_eaten o); cbn [snd]; rewrite <- T; [|auto with tl]. rewrite peek_rest. apply get_tl.
Qed.

Lemma fwd_eat_all : fwd eat_all.
Proof.
  assert (L : forall f o s, tl (rest s) (rest (eat_all_loop f o s))).
  { induction f as [|f IH]; intros o s; cbn [eat_all_loop]; [auto with tl|]. destruct (is_eaten o); [|auto with tl].
    pose proof (peek_rest (get_char s)) as T. destruct (peek (get_char s)) as [o' s']. cbn [snd] in T.
    eapply tl_trans; [apply get_tl|]. rewrite <- T. apply IH. }
  intro s. unfold eat_all. pose proof (peek_rest s) as T. destruct (peek s) as [o s1]. cbn [snd] in *. rewrite <- T at 1. apply L.
Qed.

(** ** Programs *)

Definition sfx {A} (m : M A) : Prop := forall s a s', m s = Ok (a, s') -> tl (rest s) (rest s').

Lemma sfx_op : forall A (f : istream -> A * istream), fwd f -> sfx (op f).
Proof. intros A f F s a s' H. unfold op in H. injection H as H. pose proof (F s) as T. rewrite H in T. exact T. Qed.
Lemma sfx_bind : forall A B (m : M A) (f : A -> M B), sfx m -> (forall a, sfx (f a)) -> sfx (bind m f).
Proof.
  intros A B m f HM HF s b s' H. unfold bind in H. destruct (m s) as [[a s1]| | | |] eqn:E; try discriminate.
  eapply tl_trans; [exact (HM _ _ _ E)|exact (HF _ _ _ _ H)].
Qed.
Lemma sfx_ret : forall A (a : A), sfx (ret a).
Proof. intros A a s b s' H. injection H as _ <-. auto with tl. Qed.
Lemma sfx_throw : forall A e, sfx (@throw A e).
Proof. discriminate. Qed.
Lemma sfx_undef : forall A e, sfx (@undef A e).
Proof. discriminate. Qed.
Lemma sfx_use : forall A (o : option A), sfx (use o).
Proof. intros A [a|]; [apply sfx_ret|apply sfx_undef]. Qed.
Lemma sfx_lift : forall A (o : outcome A), sfx (lift o).
Proof. intros A o s a s' H. unfold lift in H. destruct o; try discriminate. injection H as _ <-. auto with tl. Qed.
Lemma sfx_massert : forall c b, sfx (massert c b).
Proof. intros c b s a s' H. unfold massert in H. destruct (ndebug c); [|destruct b; [|discriminate]]; injection H as _ <-; auto with tl. Qed.
Lemma sfx_assert_good : forall c, sfx (assert_good c).
Proof. intros c s a s' H. exact (sfx_massert _ _ _ _ _ H). Qed.
Lemma sfx_mapM : forall A B (f : A -> M B) l, (forall x, sfx (f x)) -> sfx (mapM f l).
Proof.
  intros A B f l H. induction l as [|x l IH]; cbn [mapM]; [apply sfx_ret|].
  apply sfx_bind; [apply H|]. intro. apply sfx_bind; [exact IH|]. intro. apply sfx_ret.
Qed.
Lemma sfx_iterM : forall S n (f : S -> M S), (forall s, sfx (f s)) -> forall s, sfx (iterM n f s).
Proof. intros S n f H. induction n as [|n IH]; intro s; cbn [iterM]; [apply sfx_ret|]. apply sfx_bind; [apply H|exact IH]. Qed.
Lemma sfx_fill : forall A cnt (f : A -> M A) v, (forall x, sfx (f x)) -> sfx (fill cnt f v).
Proof. intros A cnt f v H. unfold fill. destruct (_ =? _); [apply sfx_mapM; exact H|apply sfx_undef]. Qed.
Lemma sfx_raw_array : forall f l, (forall o, fwd (f o)) -> sfx (rd_raw_array f l).
Proof.
  intros f l H. unfold rd_raw_array. apply sfx_bind; [|intro; apply sfx_mapM; intro; apply sfx_op, H].
  apply sfx_op. intro s. pose proof (noskip_rest s) as T. destruct (sentry_noskip s) as [o s']. cbn [snd] in *. rewrite T. auto with tl.
Qed.

Ltac fwd1 := match goal with
  | |- fwd (rd_token _) => apply fwd_token
  | |- fwd (rd_int _) => apply (fwd_num _ _ _ tl_int)
  | |- fwd (rd_size _) => apply (fwd_num _ _ _ tl_size)
  | |- fwd (rd_double _) => apply (fwd_num _ _ _ tl_double)
  | |- fwd (rd_int_opt _) => apply (fwd_num_opt _ _ _ tl_int)
  | |- fwd (rd_size_opt _) => apply (fwd_num_opt _ _ _ tl_size)
  | |- fwd (rd_quoted _) => apply fwd_quoted
  | |- fwd (rd_raw_int _) => apply fwd_raw_int
  | |- fwd (rd_raw_size _) => apply fwd_raw_size
  | |- fwd (rd_raw_double _) => apply fwd_raw_size
  | |- fwd (rd_raw_int_opt _) => apply fwd_raw_int_opt
  | |- fwd (rd_raw_size_opt _) => apply fwd_raw_size_opt
  | |- fwd eat1 => apply fwd_eat1
  | |- fwd eat_all => apply fwd_eat_all
  end.
Ltac sfx_go := cbv zeta;
  repeat match goal with
  | |- sfx (bind _ _) => apply sfx_bind; [|intro]; cbv beta zeta
  | |- sfx (ret _) => apply sfx_ret
  | |- sfx (throw _) => apply sfx_throw
  | |- sfx (undef _) => apply sfx_undef
  | |- sfx (op _) => apply sfx_op; fwd1
  | |- sfx (use _) => apply sfx_use
  | |- sfx (lift _) => apply sfx_lift
  | |- sfx (massert _ _) => apply sfx_massert
  | |- sfx (assert_good _) => apply sfx_assert_good
  | |- sfx (rd_raw_array _ _) => apply sfx_raw_array; intro; fwd1
  | |- sfx (mapM _ _) => apply sfx_mapM; intro
  | |- sfx (fill _ _ _) => apply sfx_fill; intro
  | |- sfx (iterM _ _ _) => apply sfx_iterM; intro
  | |- sfx (if ?b then _ else _) => destruct b
  | |- sfx (let (_, _) := ?p in _) => destruct p
  | |- sfx (match ?l with [] => _ | _ => _ end) => destruct l
  end.

Lemma elements_loop_sfx : forall f c N st, sfx (v22_elements_loop f c N st).
Proof.
  induction f as [|f IH]; intros c N st; [discriminate|]. cbn [v22_elements_loop]. unfold v22_element_binary.
  sfx_go. apply IH.
Qed.

Lemma sfx_data : forall c v b e, sfx (load_data c v b e).
Proof. intros. unfold load_data, load_data_header, entry_binary, entry_ascii. sfx_go. Qed.

Lemma dispatch_sfx : forall c name spec, sfx (dispatch c name spec).
Proof.
  intros. unfold dispatch.
  repeat match goal with |- sfx (if ?b then _ else _) => destruct b end.
  - unfold load_mesh_format. sfx_go.
  - unfold load_entities, v41_load_entities_ascii, v41_load_entities_binary, resize_entities,
      point_ascii, point_binary, entity_ascii, entity_binary, ints_ascii, ints_binary. sfx_go.
  - unfold load_physical_groups, load_group. sfx_go.
  - unfold load_nodes, v41_load_nodes_ascii, v41_load_nodes_binary, v22_load_nodes_ascii,
      v22_load_nodes_binary, v41_node_block_ascii, v41_node_block_binary, v22_node_ascii, v22_node_binary, rd_raw_into. sfx_go.
  - unfold load_elements, v41_load_elements_ascii, v41_load_elements_binary,
      v22_load_elements_ascii, v22_load_elements_binary, v41_element_block_ascii,
      v41_element_block_binary, v22_element_ascii. sfx_go.
    intros ? ? ? H. exact (elements_loop_sfx _ _ _ _ _ _ _ H).
  - unfold load_node_data. apply sfx_bind; [apply sfx_data|intro; apply sfx_ret].
  - unfold load_element_data. apply sfx_bind; [apply sfx_data|intro; apply sfx_ret].
  - unfold load_element_node_data. apply sfx_bind; [apply sfx_data|intro; apply sfx_ret].
  - unfold load_nanospline_format. sfx_go.
  - unfold load_curves, load_curve. sfx_go.
  - unfold load_patches, load_patch. sfx_go.
  - apply sfx_ret.
Qed.

(** ** The loop *)

Lemma step_later : forall c p q, step c p q -> later (stream_of p) (stream_of q).
Proof.
  intros c p q [spec s buf s1 E0 ET IS|spec s buf s1 spec' s2 E0 ET IS ED|flag buf spec s buf' s' E0 NE ET|flag buf spec s C]; cbn [stream_of].
  - pose proof (fwd_token [] s) as T. rewrite ET in T. exact T.
  - pose proof (fwd_token [] s) as T. rewrite ET in T. exact (tl_trans _ _ _ T (dispatch_sfx _ _ _ _ _ _ ED)).
  - pose proof (fwd_token buf s) as T. rewrite ET in T. exact T.
  - apply tl_refl.
Qed.

Theorem steps_later : forall c n p q, steps c n p q -> later (stream_of p) (stream_of q).
Proof.
  intros c n p q H. induction H as [p|n p q r HS H IH]; [apply tl_refl|].
  exact (tl_trans _ _ _ (step_later _ _ _ HS) IH).
Qed.

(** A word that was read stood there. *)
Lemma token_there : forall old s t s', rd_token old s = (t, s') ->
  (t = old /\ failb s' = true) \/ exists w, Forall (fun x => is_ws x = true) w /\ rest s = w ++ t ++ rest s'.
Proof.
  intros old s t s' H. unfold rd_token in H. unfold sentry in H. destruct (good s); [|injection H as <- <-; left; split; reflexivity].
  destruct (skip_ws_split (rest s)) as (w & W & E).
  destruct (skip_ws (rest s)) as [|x b]; [injection H as <- <-; left; split; reflexivity|]. cbn [rest with_rest] in H.
  destruct (take_token (x :: b)) as [t' r] eqn:K. injection H as <- <-. right. exists w. split; [exact W|].
  rewrite rest_at_end, <- (take_token_split _ _ _ K). exact E.
Qed.

Theorem met_there : forall c b name spec s, meets c b name spec s -> exists u, b = u ++ name ++ rest s.
Proof.
  intros c b name spec s (s0 & (n & R) & E0 & ET). destruct (steps_later _ _ _ _ R) as (u & U). cbn in U.
  destruct (token_there _ _ _ _ ET) as [[-> _]|(w & _ & W)].
  - pose proof (fwd_token [] s0) as (u' & T). rewrite ET in T. cbn in T. exists (u ++ u'). rewrite U, T, <- app_assoc. reflexivity.
  - exists (u ++ w). rewrite U, W, <- !app_assoc. reflexivity.
Qed.

Theorem version_said : forall c b p, reached c b p ->
  version (mesh_format (spec_of p)) = str "4.1" \/ says_version (version (mesh_format (spec_of p))) b.
Proof.
  intros c b. apply (reached_inv c b (fun sp => version (mesh_format sp) = str "4.1" \/ says_version (version (mesh_format sp)) b)); [left; reflexivity|].
  intros name spec s spec' s' HM IS HI ED. destruct (bytes_eqb name (str "$MeshFormat")) eqn:Q.
  2: { apply bytes_eqb_neq in Q. rewrite (dispatch_keeps c name spec Q _ _ _ ED). exact HI. }
  apply bytes_eqb_eq in Q. subst name. destruct (met_there _ _ _ _ _ HM) as (u & U).
  change (dispatch c (str "$MeshFormat") spec) with (load_mesh_format spec) in ED. unfold load_mesh_format in ED. cbv zeta in ED.
  unfold bind at 1, op at 1 in ED. destruct (rd_token (version (mesh_format spec)) s) as [v s1] eqn:ET.
  assert (V : version (mesh_format spec') = v).
  { destruct (negb (bytes_eqb v v22s) && negb (bytes_eqb v v41s)); [discriminate|].
    unfold bind at 1, op at 1 in ED. destruct (rd_int (file_type (mesh_format spec)) s1) as [ft s2].
    unfold bind at 1, op at 1 in ED. destruct (rd_int (data_size (mesh_format spec)) s2) as [ds s3].
    destruct (bytes_eqb v v41s && negb (to_size ds =? 8)); [discriminate|]. unfold bind at 1 in ED.
    match type of ED with match ?m with _ => _ end = _ => destruct m as [[[] s4]| | | |]; try discriminate end.
    injection ED as <- _. reflexivity. }
  rewrite V. destruct (token_there _ _ _ _ ET) as [[-> _]|(w & W & E)]; [exact HI|]. right.
  exists u, w, (rest s1). split; [exact W|]. rewrite U, E. reflexivity.
Qed.

Lemma token_after : forall s t s', rd_token [] s = (t, s') -> exists u, rest s = u ++ t ++ rest s'.
Proof.
  intros s t s' ET. destruct (token_there _ _ _ _ ET) as [[-> _]|(w & _ & W)]; [|exists w; exact W].
  pose proof (fwd_token [] s) as (u & T). rewrite ET in T. exists u. exact T.
Qed.

Theorem sequence : forall c b n1 spec1 s1 n2 spec2 s2 s1' s2' n, reached c b (Main spec1 s1) ->
  rd_token [] s1 = (n1, s1') -> steps c (S n) (Main spec1 s1) (Main spec2 s2) -> rd_token [] s2 = (n2, s2') ->
  exists u w, b = u ++ n1 ++ w ++ n2 ++ rest s2'.
Proof.
  intros c b n1 spec1 s1 n2 spec2 s2 s1' s2' n (m & R) E1 ST E2. destruct (steps_later _ _ _ _ R) as (u & U). cbn in U.
  destruct (token_after _ _ _ E1) as (u1 & U1). destruct (token_after _ _ _ E2) as (u2 & U2).
  assert (T : tl (rest s1') (rest s2)).
  { inversion ST as [|n' p q r S1 S2]; subst. inversion S1; subst.
    - match goal with H : rd_token [] s1 = _ |- _ => rewrite E1 in H; injection H as <- <- end. exact (steps_later _ _ _ _ S2).
    - match goal with H : rd_token [] s1 = _ |- _ => rewrite E1 in H; injection H as <- <- end.
      match goal with H : dispatch _ _ _ _ = _ |- _ => refine (tl_trans _ _ _ (dispatch_sfx _ _ _ _ _ _ H) _) end. exact (steps_later _ _ _ _ S2). }
  destruct T as (v & V). exists (u ++ u1), (v ++ u2). rewrite U, U1, V, U2, <- !app_assoc. reflexivity.
Qed.

(** Deciding [says_version (str "2.2")]. *)
Fixpoint starts_with (p b : bytes) : bool :=
  match p, b with
  | [], _ => true
  | x :: p', y :: b' => Byte.eqb x y && starts_with p' b'
  | _ :: _, [] => false
  end.
Fixpoint says_22 (b : bytes) : bool :=
  (starts_with (str "$MeshFormat") b && starts_with (str "2.2") (skip_ws (skipn 11 b))) ||
  match b with [] => false | _ :: b' => says_22 b' end.

Lemma says_22_eq : forall b, says_22 b = (starts_with (str "$MeshFormat") b && starts_with (str "2.2") (skip_ws (skipn 11 b))) ||
  match b with [] => false | _ :: b' => says_22 b' end.
Proof. intros [|x b]; reflexivity. Qed.

Lemma starts_app : forall p b, starts_with p (p ++ b) = true.
Proof. induction p as [|x p IH]; intro b; cbn; [reflexivity|]. rewrite IH, andb_true_r. apply Byte.byte_dec_lb. reflexivity. Qed.

Lemma says_22_true : forall b, says_version (str "2.2") b -> says_22 b = true.
Proof.
  intros b (u & w & r & W & ->). induction u as [|x u IH]; cbn [app].
  - assert (K : skip_ws (w ++ str "2.2" ++ r) = str "2.2" ++ r).
    { induction W as [|y w Hy W IHW]; [reflexivity|]. cbn [app skip_ws]. rewrite Hy. exact IHW. }
    rewrite says_22_eq, starts_app. change (skipn 11 (str "$MeshFormat" ++ w ++ str "2.2" ++ r)) with (w ++ str "2.2" ++ r).
    rewrite K, starts_app. reflexivity.
  - rewrite says_22_eq, IH. apply orb_true_r.
Qed.
