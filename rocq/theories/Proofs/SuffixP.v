(** Every loader leaves the stream at a later point of the same file. *)

From Verif Require Import Model.LoadMsh Spec.Told Proofs.BytesP Proofs.RtBase Proofs.Mono Proofs.ToldNumP.

Ltac Zify.zify_post_hook ::= idtac.

(** The unread characters of [s'] are the last ones of [s]. *)
Definition later (s s' : istream) : Prop := exists t, rest s = t ++ rest s'.

Lemma later_refl : forall s, later s s.
Proof. intro s. exists []. reflexivity. Qed.
Lemma later_trans : forall a b c, later a b -> later b c -> later a c.
Proof. intros a b c (t & E) (u & F). exists (t ++ u). rewrite E, F, app_assoc. reflexivity. Qed.
Lemma later_end : forall s e f, later s {| rest := []; eofb := e; failb := f |}.
Proof. intros s e f. exists (rest s). cbn [rest]. rewrite app_nil_r. reflexivity. Qed.

Lemma skip_ws_is : forall b, exists u, blank u /\ b = u ++ skip_ws b.
Proof.
  induction b as [|c b (u & B & E)]; [exists []; split; [constructor|reflexivity]|]. cbn [skip_ws].
  destruct (is_ws c) eqn:W; [|exists []; split; [constructor|reflexivity]].
  exists (c :: u). split; [constructor; assumption|]. cbn [app]. f_equal. exact E.
Qed.

Lemma take_token_is : forall b t r, take_token b = (t, r) -> b = t ++ r /\ Forall (fun c => is_ws c = false) t.
Proof.
  induction b as [|c b IH]; intros t r H; cbn [take_token] in H.
  - injection H as <- <-. split; [reflexivity|constructor].
  - destruct (is_ws c) eqn:W; [injection H as <- <-; split; [reflexivity|constructor]|].
    destruct (take_token b) as [t' r'] eqn:E. injection H as <- <-. destruct (IH t' r' eq_refl) as [-> F].
    split; [reflexivity|constructor; assumption].
Qed.

Definition leaves {A} (ext : bytes -> A * bool * bytes) : Prop := forall b v f r, ext b = (v, f, r) -> exists w, b = w ++ r.

Lemma leaves_int : leaves extract_int.
Proof.
  intros b v f r H. unfold extract_int in H.
  destruct (take_sign b) as [neg b1] eqn:ES. destruct (take_digits b1) as [ds b2] eqn:ED.
  apply take_sign_is in ES. destruct ES as (s & -> & _). apply take_digits_is in ED. destruct ED as (t & -> & _).
  assert (E : b2 = r) by (destruct ds; [|cbv zeta in H; destruct (_ <? INT_MIN); [|destruct (INT_MAX <? _)]]; congruence).
  subst b2. exists (s ++ t). apply app_assoc.
Qed.
Lemma leaves_size : leaves extract_size.
Proof.
  intros b v f r H. unfold extract_size in H.
  destruct (take_sign b) as [neg b1] eqn:ES. destruct (take_digits b1) as [ds b2] eqn:ED.
  apply take_sign_is in ES. destruct ES as (s & -> & _). apply take_digits_is in ED. destruct ED as (t & -> & _).
  assert (E : b2 = r) by (destruct ds; [|cbv zeta in H; destruct (SIZE_MAX <? _)]; congruence).
  subst b2. exists (s ++ t). apply app_assoc.
Qed.
Lemma leaves_double : leaves extract_double.
Proof.
  intros b v f r H. unfold extract_double in H.
  destruct (take_sign b) as [neg b1] eqn:ES. destruct (scan_float false false false b1) as [t b2] eqn:EF.
  apply take_sign_is in ES. destruct ES as (s & -> & _). apply (scan_is (List.length b1)) in EF; [|lia]. destruct EF as (w & -> & _).
  assert (E : b2 = r) by (destruct (parse_dec t) as [[m e]|]; [cbv zeta in H; destruct (inf_mag <=? _)|]; congruence).
  subst b2. exists (s ++ w). apply app_assoc.
Qed.

Definition goes {A} (f : istream -> A * istream) : Prop := forall s, later s (snd (f s)).

Lemma goes_token : forall o, goes (rd_token o).
Proof.
  intros o s. unfold rd_token. destruct (sentry_cases s) as [(G & N & ->)|[(G & N & ->)|(G & ->)]]; [|apply later_end|exists []; reflexivity].
  cbn [with_rest IStream.rest]. destruct (take_token (skip_ws (rest s))) as [t r] eqn:E. cbn [snd].
  destruct (at_end_rest r (with_rest (skip_ws (rest s)) s)) as (e & EA). cbn [with_rest] in EA. rewrite EA.
  apply take_token_is in E. destruct E as [E _]. destruct (skip_ws_is (rest s)) as (u & _ & EU).
  exists (u ++ t). cbn [IStream.rest]. rewrite EU at 1. rewrite E. apply app_assoc.
Qed.
Lemma goes_num : forall A (ext : bytes -> A * bool * bytes) o, leaves ext -> goes (rd_num ext o).
Proof.
  intros A ext o L s. unfold rd_num. destruct (sentry_cases s) as [(G & N & ->)|[(G & N & ->)|(G & ->)]]; [|apply later_end|exists []; reflexivity].
  cbn [with_rest IStream.rest]. destruct (ext (skip_ws (rest s))) as [[v fl] r] eqn:E. cbn [snd].
  destruct (at_end_rest r (with_rest (skip_ws (rest s)) s)) as (e & EA). cbn [with_rest] in EA. rewrite EA.
  apply L in E. destruct E as [t E]. destruct (skip_ws_is (rest s)) as (u & _ & EU).
  exists (u ++ t). destruct fl; cbn [IStream.rest set_fail]; rewrite EU at 1; rewrite E; apply app_assoc.
Qed.
Lemma goes_num_opt : forall A (ext : bytes -> A * bool * bytes) o, leaves ext -> goes (rd_num_opt ext o).
Proof.
  intros A ext o L s. unfold rd_num_opt. destruct (sentry_cases s) as [(G & N & ->)|[(G & N & ->)|(G & ->)]]; [|apply later_end|exists []; reflexivity].
  cbn [with_rest IStream.rest]. destruct (ext (skip_ws (rest s))) as [[v fl] r] eqn:E. cbn [snd].
  destruct (at_end_rest r (with_rest (skip_ws (rest s)) s)) as (e & EA). cbn [with_rest] in EA. rewrite EA.
  apply L in E. destruct E as [t E]. destruct (skip_ws_is (rest s)) as (u & _ & EU).
  exists (u ++ t). destruct fl; cbn [IStream.rest set_fail]; rewrite EU at 1; rewrite E; apply app_assoc.
Qed.
Lemma goes_quoted : forall o, goes (rd_quoted o).
Proof.
  intros o s. unfold rd_quoted. destruct (sentry_cases s) as [(G & N & ->)|[(G & N & ->)|(G & ->)]]; [|apply later_end|exists []; reflexivity].
  destruct (skip_ws_is (rest s)) as (u & _ & EU). set (s1 := with_rest (skip_ws (rest s)) s).
  assert (L : later s s1) by (exists u; exact EU). eapply later_trans; [exact L|]. clear L EU u.
  assert (TK : later s1 (snd (rd_token o s1))) by apply goes_token.
  destruct (rest s1) as [|c b] eqn:E; [exact TK|].
  destruct c; try exact TK. destruct (unquote b) as [t [r|]] eqn:EQ; cbn [snd]; [|apply later_end].
  apply (unquote_is (List.length b)) in EQ; [|lia]. destruct EQ as (e & EQ & _). exists (x22 :: e ++ [x22]). cbn [with_rest IStream.rest]. rewrite E, EQ.
  cbn [app]. rewrite <- app_assoc. reflexivity.
Qed.
Lemma goes_peek : goes peek.
Proof.
  intro s. unfold peek, sentry_noskip. destruct (good s); [|exists []; reflexivity]. destruct (rest s); exists []; reflexivity.
Qed.
Lemma later_get : forall s, later s (get_char s).
Proof.
  intro s. unfold get_char, sentry_noskip. destruct (good s); [|exists []; reflexivity].
  destruct (rest s) as [|c r] eqn:E; [apply later_end|]. exists [c]. cbn [with_rest IStream.rest]. rewrite E. reflexivity.
Qed.
Lemma goes_eat1 : goes eat1.
Proof.
  intro s. unfold eat1. pose proof (goes_peek s) as P. destruct (peek s) as [c s1]. cbn [snd] in P.
  destruct (is_eaten c); [|exact P]. cbn [snd]. eapply later_trans; [exact P|]. eapply later_trans; [apply later_get|apply goes_peek].
Qed.
Lemma later_eat_loop : forall f c s, later s (eat_all_loop f c s).
Proof.
  induction f as [|f IH]; intros c s; cbn [eat_all_loop]; [apply later_refl|]. destruct (is_eaten c); [|apply later_refl].
  pose proof (goes_peek (get_char s)) as P. destruct (peek (get_char s)) as [c' s']. cbn [snd] in P.
  eapply later_trans; [apply later_get|]. eapply later_trans; [exact P|apply IH].
Qed.
Lemma goes_eat_all : goes eat_all.
Proof.
  intro s. unfold eat_all. pose proof (goes_peek s) as P. destruct (peek s) as [c s1]. cbn [snd] in *.
  eapply later_trans; [exact P|apply later_eat_loop].
Qed.
Lemma later_raw : forall old s, later s (snd (rd_raw old s)).
Proof.
  intros old s. unfold rd_raw, sentry_noskip. destruct (good s); [|exists []; reflexivity].
  destruct (_ <? _)%nat; cbn [snd]; [apply later_end|]. exists (firstn (List.length old) (rest s)). cbn [with_rest IStream.rest]. symmetry. apply firstn_skipn.
Qed.
Lemma goes_raw_size : forall o, goes (rd_raw_size o).
Proof. intros o s. unfold rd_raw_size. pose proof (later_raw (le 8 o) s) as P. destruct (rd_raw (le 8 o) s) as [[b k] s']. exact P. Qed.
Lemma goes_raw_int : forall o, goes (rd_raw_int o).
Proof. intros o s. unfold rd_raw_int. pose proof (later_raw (le 4 o) s) as P. destruct (rd_raw (le 4 o) s) as [[b k] s']. exact P. Qed.
Lemma goes_raw_int_opt : forall o, goes (rd_raw_int_opt o).
Proof.
  intros [v|] s; unfold rd_raw_int_opt.
  - pose proof (goes_raw_int v s) as P. destruct (rd_raw_int v s). exact P.
  - pose proof (later_raw (repeat x00 4) s) as P. destruct (rd_raw (repeat x00 4) s) as [[b k] s']. exact P.
Qed.
Lemma goes_raw_size_opt : forall o, goes (rd_raw_size_opt o).
Proof.
  intros [v|] s; unfold rd_raw_size_opt.
  - pose proof (goes_raw_size v s) as P. destruct (rd_raw_size v s). exact P.
  - pose proof (later_raw (repeat x00 8) s) as P. destruct (rd_raw (repeat x00 8) s) as [[b k] s']. exact P.
Qed.

Definition suf {A} (m : M A) : Prop := forall s a s', m s = Ok (a, s') -> later s s'.

Lemma suf_bind : forall A B (m : M A) (f : A -> M B),
  suf m -> (forall a, suf (f a)) -> suf (bind m f).
Proof.
  intros A B m f Hm Hf s b s' H. unfold bind in H.
  destruct (m s) as [[a s1]|e|u| |] eqn:E; try discriminate.
  eapply later_trans; [eapply Hm; exact E|eapply Hf; exact H].
Qed.

Lemma suf_ret : forall A (a : A), suf (ret a).
Proof. intros A a s b s' H. injection H as -> ->. apply later_refl. Qed.

Lemma suf_throw : forall A e, suf (@throw A e).
Proof. intros A e s a s' H. discriminate. Qed.

Lemma suf_undef : forall A u, suf (@undef A u).
Proof. intros A u s a s' H. discriminate. Qed.

Lemma suf_lift : forall A (o : outcome A), suf (lift o).
Proof. intros A o s a s' H. destruct o; try discriminate. injection H as -> ->. apply later_refl. Qed.

Lemma suf_use : forall A (o : option A), suf (use o).
Proof. intros A [a|]; [apply suf_ret|apply suf_undef]. Qed.

Lemma suf_massert : forall c b, suf (massert c b).
Proof.
  intros c b s a s' H. unfold massert in H.
  destruct (ndebug c), b; try discriminate; injection H as _ <-; apply later_refl.
Qed.

Lemma suf_assert_good : forall c, suf (assert_good c).
Proof. intros c s a s' H. eapply suf_massert. exact H. Qed.

Lemma suf_mapM : forall A B (f : A -> M B) l, (forall x, suf (f x)) -> suf (mapM f l).
Proof.
  intros A B f l H. induction l as [|x l IH]; cbn [mapM]; [apply suf_ret|].
  apply suf_bind; [apply H|]. intro y. apply suf_bind; [exact IH|]. intro. apply suf_ret.
Qed.

Lemma suf_iterM : forall S n (f : S -> M S), (forall s, suf (f s)) -> forall s, suf (iterM n f s).
Proof.
  intros S n f H. induction n as [|n IH]; intro s; cbn [iterM]; [apply suf_ret|].
  apply suf_bind; [apply H|exact IH].
Qed.

Lemma suf_fill : forall A cnt (f : A -> M A) v, (forall x, suf (f x)) -> suf (fill cnt f v).
Proof.
  intros A cnt f v H. unfold fill. destruct (cnt =? zlen v); [apply suf_mapM; exact H|apply suf_undef].
Qed.

Lemma suf_op : forall A (f : istream -> A * istream), (forall s, later s (snd (f s))) -> suf (op f).
Proof.
  intros A f H s a s' E. unfold op in E. injection E as E. specialize (H s). rewrite E in H. exact H.
Qed.

Lemma suf_op_token : forall o, suf (op (rd_token o)).
Proof. intro; apply suf_op; apply goes_token. Qed.
Lemma suf_op_int : forall o, suf (op (rd_int o)).
Proof. intro; apply suf_op; apply goes_num; apply leaves_int. Qed.
Lemma suf_op_size : forall o, suf (op (rd_size o)).
Proof. intro; apply suf_op; apply goes_num; apply leaves_size. Qed.
Lemma suf_op_double : forall o, suf (op (rd_double o)).
Proof. intro; apply suf_op; apply goes_num; apply leaves_double. Qed.
Lemma suf_op_int_opt : forall o, suf (op (rd_int_opt o)).
Proof. intro; apply suf_op; apply goes_num_opt; apply leaves_int. Qed.
Lemma suf_op_size_opt : forall o, suf (op (rd_size_opt o)).
Proof. intro; apply suf_op; apply goes_num_opt; apply leaves_size. Qed.
Lemma suf_op_quoted : forall o, suf (op (rd_quoted o)).
Proof. intro; apply suf_op; apply goes_quoted. Qed.
Lemma suf_op_eat1 : suf (op eat1).
Proof. apply suf_op; apply goes_eat1. Qed.
Lemma suf_op_eat_all : suf (op eat_all).
Proof. apply suf_op; apply goes_eat_all. Qed.
Lemma suf_op_raw_size : forall o, suf (op (rd_raw_size o)).
Proof. intro; apply suf_op; apply goes_raw_size. Qed.
Lemma suf_op_raw_double : forall o, suf (op (rd_raw_double o)).
Proof. intro; apply suf_op; apply goes_raw_size. Qed.
Lemma suf_op_raw_int : forall o, suf (op (rd_raw_int o)).
Proof. intro; apply suf_op; apply goes_raw_int. Qed.
Lemma suf_op_raw_int_opt : forall o, suf (op (rd_raw_int_opt o)).
Proof. intro; apply suf_op; apply goes_raw_int_opt. Qed.
Lemma suf_op_raw_size_opt : forall o, suf (op (rd_raw_size_opt o)).
Proof. intro; apply suf_op; apply goes_raw_size_opt. Qed.

Lemma suf_sentry : suf (op (fun s => let (_, s') := sentry_noskip s in (tt, s'))).
Proof.
  apply suf_op. intro s. unfold sentry_noskip. destruct (good s); cbn [snd]; [apply later_refl|exists []; reflexivity].
Qed.

Lemma suf_raw_array_size : forall l, suf (rd_raw_array rd_raw_size l).
Proof.
  intro l. unfold rd_raw_array. apply suf_bind; [apply suf_sentry|]. intros _.
  apply suf_mapM. apply suf_op_raw_size.
Qed.
Lemma suf_raw_array_double : forall l, suf (rd_raw_array rd_raw_double l).
Proof. exact suf_raw_array_size. Qed.
Lemma suf_raw_array_int : forall l, suf (rd_raw_array rd_raw_int l).
Proof.
  intro l. unfold rd_raw_array. apply suf_bind; [apply suf_sentry|]. intros _.
  apply suf_mapM. apply suf_op_raw_int.
Qed.

Ltac suf1 :=
  first
  [ apply suf_ret | apply suf_throw | apply suf_undef | apply suf_lift | apply suf_use
  | apply suf_massert | apply suf_assert_good
  | apply suf_op_token | apply suf_op_int | apply suf_op_size | apply suf_op_double
  | apply suf_op_int_opt | apply suf_op_size_opt | apply suf_op_quoted
  | apply suf_op_eat1 | apply suf_op_eat_all
  | apply suf_op_raw_size | apply suf_op_raw_double | apply suf_op_raw_int
  | apply suf_op_raw_int_opt | apply suf_op_raw_size_opt
  | apply suf_raw_array_size | apply suf_raw_array_double | apply suf_raw_array_int
  | (apply suf_mapM; intro) | (apply suf_fill; intro) | (apply suf_iterM; intro)
  | apply suf_bind; [|intro] ].
Ltac suf_go :=
  repeat first [ suf1 | match goal with
    | |- suf (if ?b then _ else _) => destruct b
    | |- suf (let (_, _) := ?p in _) => destruct p
    | |- suf (match ?l with [] => _ | _ => _ end) => destruct l
    end ].

Lemma suf_mesh_format : forall spec, suf (load_mesh_format spec).
Proof. intro. unfold load_mesh_format. suf_go. Qed.

Lemma suf_nodes : forall c spec, suf (load_nodes c spec).
Proof.
  intros. unfold load_nodes, v41_load_nodes_ascii, v41_load_nodes_binary, v22_load_nodes_ascii,
    v22_load_nodes_binary, v41_node_block_ascii, v41_node_block_binary, v22_node_ascii, v22_node_binary, rd_raw_into.
  suf_go.
Qed.

Lemma suf_entities : forall c spec, suf (load_entities c spec).
Proof.
  intros. unfold load_entities, v41_load_entities_ascii, v41_load_entities_binary, resize_entities,
    point_ascii, point_binary, entity_ascii, entity_binary, ints_ascii, ints_binary. suf_go.
Qed.

Lemma suf_groups : forall c spec, suf (load_physical_groups c spec).
Proof. intros. unfold load_physical_groups, load_group. suf_go. Qed.

Lemma suf_data : forall c v b e, suf (load_data c v b e).
Proof.
  intros. unfold load_data, load_data_header, entry_binary, entry_ascii. suf_go.
Qed.

Lemma suf_curves : forall c spec, suf (load_curves c spec).
Proof. intros. unfold load_curves, load_curve. suf_go. Qed.

Lemma suf_patches : forall c spec, suf (load_patches c spec).
Proof. intros. unfold load_patches, load_patch. suf_go. Qed.

Lemma suf_elements_loop : forall f c N st, suf (v22_elements_loop f c N st).
Proof.
  induction f as [|f IH]; intros c N st; cbn [v22_elements_loop].
  - intros s a s' H. discriminate.
  - destruct (vb_done st =? N); [apply suf_ret|]. unfold v22_element_binary.
    repeat first [apply IH | suf1 | match goal with
    | |- suf (if ?b then _ else _) => destruct b
    | |- suf (let (_, _) := ?p in _) => destruct p
    end].
Qed.

Lemma suf_elements : forall c spec, suf (load_elements c spec).
Proof.
  intros. unfold load_elements, v41_load_elements_ascii, v41_load_elements_binary,
    v22_load_elements_ascii, v22_load_elements_binary, v41_element_block_ascii,
    v41_element_block_binary, v22_element_ascii.
  repeat first [ suf1 | match goal with
    | |- suf (if ?b then _ else _) => destruct b
    | |- suf (let (_, _) := ?p in _) => destruct p
    | |- suf (match ?l with [] => _ | _ => _ end) => destruct l
    end ].
  intros s x s' H. eapply suf_elements_loop. exact H.
Qed.

Lemma suf_dispatch : forall c buf spec, suf (dispatch c buf spec).
Proof.
  intros. unfold dispatch.
  repeat match goal with |- suf (if ?b then _ else _) => destruct b end.
  - apply suf_mesh_format.
  - apply suf_entities.
  - apply suf_groups.
  - apply suf_nodes.
  - apply suf_elements.
  - unfold load_node_data. apply suf_bind; [apply suf_data|intro; apply suf_ret].
  - unfold load_element_data. apply suf_bind; [apply suf_data|intro; apply suf_ret].
  - unfold load_element_node_data. apply suf_bind; [apply suf_data|intro; apply suf_ret].
  - unfold load_nanospline_format. suf_go.
  - apply suf_curves.
  - apply suf_patches.
  - apply suf_ret.
Qed.
