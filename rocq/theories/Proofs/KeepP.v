(** A reader that has not met the end of its stream, failed or not, does the
    same with more input behind. *)

From Verif Require Import Model.LoadMsh Spec.Steps Spec.Prefix Proofs.BytesP Proofs.RtBase Proofs.Mono Proofs.Fuel Proofs.ExtendP Proofs.PrefixP.

Ltac Zify.zify_post_hook ::= idtac.

Definition keeps {A} (m : M A) : Prop :=
  mono m /\ forall s a s' q, m s = Ok (a, s') -> eofb s' = false -> m (more q s) = Ok (a, more q s').

Lemma eof_before : forall s s', adv s s' -> eofb s' = false -> eofb s = false.
Proof. intros s s' A E. destruct (eofb s) eqn:X; [|reflexivity]. rewrite (adv_eof _ _ A X) in E. discriminate. Qed.

Lemma keeps_bind : forall A B (m : M A) (k : A -> M B), keeps m -> (forall a, keeps (k a)) -> keeps (bind m k).
Proof.
  intros A B m k (M1 & H1) H2. split; [apply mono_bind; [exact M1|intro a; apply H2]|].
  intros s b s' q E G. unfold bind in *. destruct (m s) as [[a s1]|e|u| |] eqn:E1; try discriminate.
  rewrite (H1 _ _ _ q E1); [apply H2; assumption|]. eapply eof_before; [eapply (proj1 (H2 a)); exact E|exact G].
Qed.
Lemma keeps_ret : forall A (a : A), keeps (ret a).
Proof. intros. split; [apply mono_ret|]. intros s b s' q E G. injection E as <- <-. reflexivity. Qed.
Lemma keeps_throw : forall A e, keeps (@throw A e).
Proof. intros. split; [apply mono_throw|]. intros s b s' q E G. discriminate. Qed.
Lemma keeps_undef : forall A e, keeps (@undef A e).
Proof. intros. split; [apply mono_undef|]. intros s b s' q E G. discriminate. Qed.
Lemma keeps_lift : forall A (o : outcome A), keeps (lift o).
Proof. intros. split; [apply mono_lift|]. intros s b s' q E G. unfold lift in *. destruct o; try discriminate. injection E as <- <-. reflexivity. Qed.
Lemma keeps_use : forall A (o : option A), keeps (use o).
Proof. intros A [a|]; cbn [use]; [apply keeps_ret|apply keeps_undef]. Qed.
Lemma keeps_massert : forall c b, keeps (massert c b).
Proof.
  intros. unfold massert. destruct (ndebug c); [apply keeps_ret|]. destruct b; [apply keeps_ret|].
  split; [intros s a s' E; discriminate|]. intros s a s' q E G; discriminate.
Qed.
Lemma keeps_assert_good : forall c, keeps (assert_good c).
Proof.
  intro c. split; [apply mono_assert_good|]. intros s a s' q E G. unfold assert_good in *. rewrite good_more.
  eapply (proj2 (keeps_massert c (good s))); eassumption.
Qed.
Lemma keeps_mapM : forall A B (f : A -> M B) l, (forall x, keeps (f x)) -> keeps (mapM f l).
Proof.
  intros A B f l H. induction l as [|x l IH]; [apply keeps_ret|]. cbn [mapM]. apply keeps_bind; [apply H|intro].
  apply keeps_bind; [exact IH|intro; apply keeps_ret].
Qed.
Lemma keeps_iterM : forall S n (f : S -> M S), (forall s, keeps (f s)) -> forall s, keeps (iterM n f s).
Proof. intros S n f H. induction n as [|n IH]; intro s; [apply keeps_ret|]. cbn [iterM]. apply keeps_bind; [apply H|exact IH]. Qed.
Lemma keeps_fill : forall A cnt (f : A -> M A) v, (forall x, keeps (f x)) -> keeps (fill cnt f v).
Proof. intros. unfold fill. destruct (cnt =? zlen v); [apply keeps_mapM; assumption|apply keeps_undef]. Qed.

(** ** Single reads *)

(** A failed stream stays as it is. *)
Definition dead (s : istream) : Prop := good s = false /\ eofb s = false.
Lemma dead_more : forall q s, dead s -> dead (more q s).
Proof. intros q s H. exact H. Qed.
Lemma dead_fail : forall q s, dead s -> set_fail (more q s) = more q (set_fail s).
Proof. reflexivity. Qed.
Lemma keeps_op : forall A (f : istream -> A * istream), mono (op f) ->
  (forall s q, good (snd (f s)) = true -> f (more q s) = (fst (f s), more q (snd (f s)))) ->
  (forall s q, dead s -> f (more q s) = (fst (f s), more q (snd (f s)))) ->
  (forall s q, good s = true -> dead (snd (f s)) -> f (more q s) = (fst (f s), more q (snd (f s)))) -> keeps (op f).
Proof.
  intros A f M0 H1 H2 H3. split; [exact M0|]. intros s a s' q E G. pose proof (eof_before _ _ (M0 _ _ _ E) G) as E0. unfold op in *. injection E as E.
  assert (X : f (more q s) = (fst (f s), more q (snd (f s)))); [|rewrite X, E; reflexivity].
  destruct (good s') eqn:GS; [apply H1; rewrite E; exact GS|]. destruct (good s) eqn:GS0; [apply H3|apply H2]; [exact GS0| |]; split; try assumption; rewrite E; assumption.
Qed.
Lemma sentry_dead : forall s, dead s -> sentry s = (false, set_fail s).
Proof. intros s [G E]. unfold sentry. rewrite G. reflexivity. Qed.
Lemma noskip_dead : forall s, dead s -> sentry_noskip s = (false, set_fail s).
Proof. intros s [G E]. unfold sentry_noskip. rewrite G. reflexivity. Qed.

Lemma at_end_dead : forall r s, eofb s = false -> failb s = false -> ~ dead (at_end r s).
Proof. intros [|x r] s E F [G D]; [discriminate|]. unfold at_end, good, with_rest in G. cbn in G. rewrite E, F in G. discriminate. Qed.
Lemma token_not_dead : forall o s, good s = true -> ~ dead (snd (rd_token o s)).
Proof.
  intros o s G. unfold rd_token, sentry. rewrite G. apply good_flags in G. destruct G as [E F]. destruct (skip_ws (rest s)) as [|x b].
  - intros [_ D]. discriminate.
  - destruct (take_token _) as [t r]. apply at_end_dead; assumption.
Qed.
Lemma keeps_token : forall o, keeps (op (rd_token o)).
Proof.
  intro o. apply keeps_op; [apply mono_op_token|apply token_more| |].
  - intros s q D. unfold rd_token. rewrite !sentry_dead by assumption. reflexivity.
  - intros s q G D. elim (token_not_dead o s G D).
Qed.
Lemma keeps_quoted : forall o, keeps (op (rd_quoted o)).
Proof.
  intro o. apply keeps_op; [apply mono_op_quoted|apply quoted_more| |].
  - intros s q D. unfold rd_quoted. rewrite !sentry_dead by assumption. reflexivity.
  - intros s q G D. exfalso. revert D. unfold rd_quoted, sentry. rewrite G. pose proof G as G'. apply good_flags in G'. destruct G' as [E F].
    destruct (skip_ws (rest s)) as [|x b]; [intros [_ D]; discriminate|]. cbn [with_rest rest].
    assert (T : ~ dead (snd (rd_token o (with_rest (x :: b) s)))) by (apply token_not_dead; unfold good; cbn; rewrite E, F; reflexivity).
    destruct x; try exact T. destruct (unquote b) as [t [r|]]; intros [D1 D2]; [|discriminate].
    unfold good in D1. cbn in D1. rewrite E, F in D1. discriminate.
Qed.
Lemma num_fails : forall A (e : bytes -> A * bool * bytes) o s q, stops e -> good s = true -> dead (snd (rd_num e o s)) ->
  rd_num e o (more q s) = (fst (rd_num e o s), more q (snd (rd_num e o s))).
Proof.
  intros A e o s q S G D. unfold rd_num in *. pose proof (sentry_more s q) as HM. destruct (sentry s) as [ok s1] eqn:ES. cbn [fst snd] in *.
  destruct ok.
  - destruct HM as (-> & N & E & F); [reflexivity|]. destruct (e (rest s1)) as [[v fl] r] eqn:ET. cbn [snd fst] in *.
    assert (NR : r <> []). { intros ->. destruct D as [_ D]. destruct fl; discriminate. }
    cbn [more rest]. rewrite (S _ q _ _ _ ET NR). fold (more q s1). rewrite at_end_more by exact NR. destruct fl; reflexivity.
  - exfalso. unfold sentry in ES. rewrite G in ES. destruct (skip_ws (rest s)); [|discriminate]. injection ES as <-. destruct D as [_ D]. discriminate.
Qed.
Lemma keeps_num : forall A (e : bytes -> A * bool * bytes) o, stops e -> mono (op (rd_num e o)) -> keeps (op (rd_num e o)).
Proof.
  intros A e o S M0. apply keeps_op; [exact M0|intros; apply num_more; assumption| |intros; apply num_fails; assumption].
  intros s q D. unfold rd_num. rewrite !sentry_dead by assumption. reflexivity.
Qed.
Lemma keeps_num_opt : forall A (e : bytes -> A * bool * bytes) o, stops e -> mono (op (rd_num_opt e o)) -> keeps (op (rd_num_opt e o)).
Proof.
  intros A e o S M0. apply keeps_op; [exact M0|intros; apply num_opt_more; assumption| |].
  - intros s q D. unfold rd_num_opt. rewrite !sentry_dead by assumption. reflexivity.
  - intros s q G D. unfold rd_num_opt in *. pose proof (sentry_more s q) as HM. destruct (sentry s) as [ok s1] eqn:ES. cbn [fst snd] in *.
    destruct ok.
    + destruct HM as (-> & N & E & F); [reflexivity|]. destruct (e (rest s1)) as [[v fl] r] eqn:ET. cbn [snd fst] in *.
      assert (NR : r <> []). { intros ->. destruct D as [_ D]. destruct fl; discriminate. }
      cbn [more rest]. rewrite (S _ q _ _ _ ET NR). fold (more q s1). rewrite at_end_more by exact NR. destruct fl; reflexivity.
    + exfalso. unfold sentry in ES. rewrite G in ES. destruct (skip_ws (rest s)); [|discriminate]. injection ES as <-. destruct D as [_ D]. discriminate.
Qed.
Lemma keeps_int : forall o, keeps (op (rd_int o)).
Proof. intro o. apply keeps_num; [apply stops_int|apply mono_op_int]. Qed.
Lemma keeps_size : forall o, keeps (op (rd_size o)).
Proof. intro o. apply keeps_num; [apply stops_size|apply mono_op_size]. Qed.
Lemma keeps_double : forall o, keeps (op (rd_double o)).
Proof. intro o. apply keeps_num; [apply stops_double|apply mono_op_double]. Qed.
Lemma keeps_int_opt : forall o, keeps (op (rd_int_opt o)).
Proof. intro o. apply keeps_num_opt; [apply stops_int|apply mono_op_int_opt]. Qed.
Lemma keeps_size_opt : forall o, keeps (op (rd_size_opt o)).
Proof. intro o. apply keeps_num_opt; [apply stops_size|apply mono_op_size_opt]. Qed.

(** Unformatted reads of a good stream fail at its end only. *)
Lemma peek_dead : forall s q, dead s -> peek (more q s) = (None, more q (set_fail s)) /\ peek s = (None, set_fail s).
Proof. intros s q D. unfold peek. rewrite !noskip_dead by assumption. split; reflexivity. Qed.
Lemma dead_dead : forall s, dead s -> dead (set_fail s).
Proof. intros s [G E]. split; [|exact E]. unfold good, set_fail. cbn. apply andb_false_r. Qed.
Lemma get_dead : forall s, dead s -> get_char s = set_fail s.
Proof. intros s D. unfold get_char. rewrite noskip_dead by assumption. reflexivity. Qed.
Lemma peek_not_dead : forall s, good s = true -> ~ dead (snd (peek s)).
Proof.
  intros s G [D E]. unfold peek, sentry_noskip in *. rewrite G in *. destruct (rest s); cbn [snd] in *; [discriminate|congruence].
Qed.
Lemma get_not_dead : forall s, good s = true -> ~ dead (get_char s).
Proof.
  intros s G [D E]. unfold get_char, sentry_noskip in *. rewrite G in *. destruct (rest s); [discriminate|]. unfold good in *. cbn in D. congruence.
Qed.
Lemma good_or_dead : forall s, eofb s = false -> good s = true \/ dead s.
Proof. intros s E. destruct (good s) eqn:G; [left; reflexivity|right; split; assumption]. Qed.
Lemma peek_alive : forall s, good s = true -> eofb (snd (peek s)) = false -> good (snd (peek s)) = true.
Proof. intros s G E. destruct (good_or_dead _ E) as [X|X]; [exact X|]. elim (peek_not_dead s G X). Qed.
Lemma get_alive : forall s, good s = true -> eofb (get_char s) = false -> good (get_char s) = true.
Proof. intros s G E. destruct (good_or_dead _ E) as [X|X]; [exact X|]. elim (get_not_dead s G X). Qed.
Lemma eat1_not_dead : forall s, good s = true -> ~ dead (snd (eat1 s)).
Proof.
  intros s G [D E]. unfold eat1 in *. pose proof (peek_alive s G) as PA. pose proof (peek_not_dead s G) as PD. destruct (peek s) as [x s1]. cbn [snd] in *.
  destruct (is_eaten x); cbn [snd] in *; [|apply PD; split; assumption].
  pose proof (eof_before _ _ (adv_peek (get_char s1)) E) as E1. pose proof (eof_before _ _ (adv_get_char s1) E1) as E2.
  specialize (PA E2). pose proof (get_alive _ PA E1) as GA. rewrite (peek_alive _ GA E) in D. discriminate.
Qed.
Lemma keeps_eat1 : keeps (op eat1).
Proof.
  apply keeps_op; [apply mono_op_eat1|apply eat1_more| |].
  - intros s q D. unfold eat1. destruct (peek_dead s q D) as [-> ->]. reflexivity.
  - intros s q G D. elim (eat1_not_dead s G D).
Qed.
Lemma eat_loop_alive : forall f x s, good s = true -> eofb (eat_all_loop f x s) = false -> good (eat_all_loop f x s) = true.
Proof.
  induction f as [|f IH]; intros x s G E; [exact G|]. cbn [eat_all_loop] in *. destruct (is_eaten x); [|exact G].
  destruct (peek (get_char s)) as [y s2] eqn:EP. apply IH; [|exact E].
  pose proof (eof_before _ _ (adv_eat_loop f y s2) E) as E2.
  pose proof (adv_peek (get_char s)) as AP. rewrite EP in AP. cbn [snd] in AP.
  pose proof (eof_before _ _ AP E2) as E1. pose proof (peek_alive _ (get_alive _ G E1)) as PA. rewrite EP in PA. apply PA. exact E2.
Qed.
Lemma keeps_eat_all : keeps (op eat_all).
Proof.
  apply keeps_op; [apply mono_op_eat_all|apply eat_all_more| |].
  - intros s q D. unfold eat_all. destruct (peek_dead s q D) as [-> ->]. cbn [eat_all_loop is_eaten]. reflexivity.
  - intros s q G [D E]. exfalso. unfold eat_all in *. pose proof (peek_alive s G) as PA. destruct (peek s) as [x s1]. cbn [snd] in *.
    pose proof (eof_before _ _ (adv_eat_loop _ x s1) E) as E1. rewrite (eat_loop_alive _ x s1 (PA E1) E) in D. discriminate.
Qed.
Lemma raw_dead : forall o s q, dead s -> rd_raw o (more q s) = (fst (rd_raw o s), more q (snd (rd_raw o s))).
Proof. intros o s q D. unfold rd_raw. rewrite !noskip_dead by assumption. reflexivity. Qed.
Lemma raw_not_dead : forall o s, good s = true -> ~ dead (snd (rd_raw o s)).
Proof.
  intros o s G [D E]. unfold rd_raw, sentry_noskip in *. rewrite G in *. destruct (_ <? _)%nat; [discriminate|]. unfold good in *. cbn in D. congruence.
Qed.
Lemma raw_keeps : forall o s q, eofb (snd (rd_raw o s)) = false -> rd_raw o (more q s) = (fst (rd_raw o s), more q (snd (rd_raw o s))).
Proof.
  intros o s q E. destruct (good (snd (rd_raw o s))) eqn:G; [apply raw_more; exact G|]. destruct (good s) eqn:GS.
  - elim (raw_not_dead o s GS). split; assumption.
  - apply raw_dead. split; [exact GS|]. destruct (eofb s) eqn:X; [|reflexivity]. unfold rd_raw, sentry_noskip in E. rewrite GS in E. cbn in E. congruence.
Qed.
Lemma keeps_of : forall A (f : istream -> A * istream), mono (op f) ->
  (forall s q, eofb (snd (f s)) = false -> f (more q s) = (fst (f s), more q (snd (f s)))) -> keeps (op f).
Proof.
  intros A f M0 H. split; [exact M0|]. intros s a s' q E G. unfold op in *. injection E as E. rewrite H; rewrite E; [reflexivity|exact G].
Qed.
Lemma raw_size_keeps : forall o s q, eofb (snd (rd_raw_size o s)) = false -> rd_raw_size o (more q s) = (fst (rd_raw_size o s), more q (snd (rd_raw_size o s))).
Proof.
  intros o s q E. unfold rd_raw_size in *. pose proof (raw_keeps (le 8 o) s q) as P. destruct (rd_raw (le 8 o) s) as [[b k] s']. cbn [fst snd] in *.
  rewrite (P E). reflexivity.
Qed.
Lemma raw_int_keeps : forall o s q, eofb (snd (rd_raw_int o s)) = false -> rd_raw_int o (more q s) = (fst (rd_raw_int o s), more q (snd (rd_raw_int o s))).
Proof.
  intros o s q E. unfold rd_raw_int in *. pose proof (raw_keeps (le 4 o) s q) as P. destruct (rd_raw (le 4 o) s) as [[b k] s']. cbn [fst snd] in *.
  rewrite (P E). reflexivity.
Qed.
Lemma keeps_raw_size : forall o, keeps (op (rd_raw_size o)).
Proof. intro o. apply keeps_of; [apply mono_op_raw_size|apply raw_size_keeps]. Qed.
Lemma keeps_raw_double : forall o, keeps (op (rd_raw_double o)).
Proof. exact keeps_raw_size. Qed.
Lemma keeps_raw_int : forall o, keeps (op (rd_raw_int o)).
Proof. intro o. apply keeps_of; [apply mono_op_raw_int|apply raw_int_keeps]. Qed.
Lemma keeps_raw_int_opt : forall o, keeps (op (rd_raw_int_opt o)).
Proof.
  intro o. apply keeps_of; [apply mono_op_raw_int_opt|]. intros s q G. unfold rd_raw_int_opt in *. destruct o as [v|].
  - pose proof (raw_int_keeps v s q) as P. destruct (rd_raw_int v s). cbn [fst snd] in *. rewrite (P G). reflexivity.
  - pose proof (raw_keeps (repeat x00 4) s q) as P. destruct (rd_raw (repeat x00 4) s) as [[b k] s']. cbn [fst snd] in *. rewrite (P G). reflexivity.
Qed.
Lemma keeps_raw_size_opt : forall o, keeps (op (rd_raw_size_opt o)).
Proof.
  intro o. apply keeps_of; [apply mono_op_raw_size_opt|]. intros s q G. unfold rd_raw_size_opt in *. destruct o as [v|].
  - pose proof (raw_size_keeps v s q) as P. destruct (rd_raw_size v s). cbn [fst snd] in *. rewrite (P G). reflexivity.
  - pose proof (raw_keeps (repeat x00 8) s q) as P. destruct (rd_raw (repeat x00 8) s) as [[b k] s']. cbn [fst snd] in *. rewrite (P G). reflexivity.
Qed.
Lemma keeps_array : forall f, (forall o, keeps (op (f o))) -> forall l, keeps (rd_raw_array f l).
Proof.
  intros f H l. unfold rd_raw_array. apply keeps_bind; [|intro; apply keeps_mapM; exact H].
  apply keeps_of; [apply mono_sentry|]. intros s q G. rewrite noskip_more. destruct (sentry_noskip s). reflexivity.
Qed.

Ltac keeps1 :=
  first
  [ apply keeps_ret | apply keeps_throw | apply keeps_undef | apply keeps_lift | apply keeps_use
  | apply keeps_massert | apply keeps_assert_good
  | apply keeps_token | apply keeps_int | apply keeps_size | apply keeps_double
  | apply keeps_int_opt | apply keeps_size_opt | apply keeps_quoted
  | apply keeps_eat1 | apply keeps_eat_all
  | apply keeps_raw_size | apply keeps_raw_double | apply keeps_raw_int
  | apply keeps_raw_int_opt | apply keeps_raw_size_opt
  | apply (keeps_array rd_raw_size); exact keeps_raw_size | apply (keeps_array rd_raw_double); exact keeps_raw_double
  | apply (keeps_array rd_raw_int); exact keeps_raw_int
  | (apply keeps_mapM; intro) | (apply keeps_fill; intro) | (apply keeps_iterM; intro)
  | apply keeps_bind; [|intro] ].
Ltac keeps_go :=
  repeat first [ keeps1 | match goal with
    | |- keeps (if ?b then _ else _) => destruct b
    | |- keeps (let (_, _) := ?p in _) => destruct p
    | |- keeps (match ?l with [] => _ | _ => _ end) => destruct l
    end ].

(** ** Sections *)

Lemma keeps_mesh_format : forall spec, keeps (load_mesh_format spec).
Proof. intro. unfold load_mesh_format. keeps_go. Qed.
Lemma keeps_nodes : forall c spec, keeps (load_nodes c spec).
Proof.
  intros. unfold load_nodes, v41_load_nodes_ascii, v41_load_nodes_binary, v22_load_nodes_ascii,
    v22_load_nodes_binary, v41_node_block_ascii, v41_node_block_binary, v22_node_ascii, v22_node_binary, rd_raw_into.
  keeps_go.
Qed.
Lemma keeps_entities : forall c spec, keeps (load_entities c spec).
Proof.
  intros. unfold load_entities, v41_load_entities_ascii, v41_load_entities_binary, resize_entities,
    point_ascii, point_binary, entity_ascii, entity_binary, ints_ascii, ints_binary. keeps_go.
Qed.
Lemma keeps_groups : forall c spec, keeps (load_physical_groups c spec).
Proof. intros. unfold load_physical_groups, load_group. keeps_go. Qed.
Lemma keeps_data : forall c v b e, keeps (load_data c v b e).
Proof. intros. unfold load_data, load_data_header, entry_binary, entry_ascii. keeps_go. Qed.
Lemma keeps_curves : forall c spec, keeps (load_curves c spec).
Proof. intros. unfold load_curves, load_curve. keeps_go. Qed.
Lemma keeps_patches : forall c spec, keeps (load_patches c spec).
Proof. intros. unfold load_patches, load_patch. keeps_go. Qed.
Lemma keeps_elements_loop : forall f c N st, keeps (v22_elements_loop f c N st).
Proof.
  induction f as [|f IH]; intros c N st; cbn [v22_elements_loop].
  - split; [intros s a s' H; discriminate|]. intros s a s' q H; discriminate.
  - destruct (vb_done st =? N); [apply keeps_ret|]. unfold v22_element_binary.
    repeat first [apply IH | keeps1 | match goal with
    | |- keeps (if ?b then _ else _) => destruct b
    | |- keeps (let (_, _) := ?p in _) => destruct p
    end].
Qed.
Lemma keeps_elements_run : forall c N st, keeps (fun s => v22_elements_loop (S (List.length (rest s))) c N st s).
Proof.
  intros c N st. split; [intros s x s' H; eapply mono_elements_loop; exact H|].
  intros s a s' q E G. cbn [more rest]. rewrite (elements_loop_fuel (S (List.length (rest s)))).
  - eapply (proj2 (keeps_elements_loop _ _ _ _)); eassumption.
  - rewrite app_length. lia.
  - rewrite (proj2 (keeps_elements_loop _ _ _ _) _ _ _ q E G). discriminate.
Qed.
Lemma keeps_elements : forall c spec, keeps (load_elements c spec).
Proof.
  intros. unfold load_elements, v41_load_elements_ascii, v41_load_elements_binary,
    v22_load_elements_ascii, v22_load_elements_binary, v41_element_block_ascii,
    v41_element_block_binary, v22_element_ascii.
  keeps_go. apply keeps_elements_run.
Qed.
Lemma keeps_dispatch : forall c buf spec, keeps (dispatch c buf spec).
Proof.
  intros. unfold dispatch.
  repeat match goal with |- keeps (if ?b then _ else _) => destruct b end.
  - apply keeps_mesh_format.
  - apply keeps_entities.
  - apply keeps_groups.
  - apply keeps_nodes.
  - apply keeps_elements.
  - unfold load_node_data. apply keeps_bind; [apply keeps_data|intro; apply keeps_ret].
  - unfold load_element_data. apply keeps_bind; [apply keeps_data|intro; apply keeps_ret].
  - unfold load_element_node_data. apply keeps_bind; [apply keeps_data|intro; apply keeps_ret].
  - unfold load_nanospline_format. keeps_go.
  - apply keeps_curves.
  - apply keeps_patches.
  - apply keeps_ret.
Qed.

(** ** The section loop *)

Lemma token_keeps : forall o s q buf s1, rd_token o s = (buf, s1) -> eofb s1 = false -> rd_token o (more q s) = (buf, more q s1).
Proof.
  intros o s q buf s1 E G. pose proof (proj2 (keeps_token o) s buf s1 q) as P. unfold op in P. rewrite E in P. specialize (P eq_refl G). congruence.
Qed.
Lemma step_keeps : forall c q p p', step c p p' -> eofb (stream_of p') = false -> step c (pmore q p) (pmore q p').
Proof.
  intros c q p p' H G. destruct H as [spec s buf s1 E ET IS|spec s buf s1 spec' s2 E ET IS ED
    |flag buf spec s buf' s' E N ET|flag buf spec s C]; cbn [stream_of pmore] in *.
  - eapply step_word; [exact E|apply token_keeps; [exact ET|exact G]|exact IS].
  - assert (G1 : eofb s1 = false) by (eapply eof_before; [eapply mono_dispatch; exact ED|exact G]).
    eapply step_section; [exact E|apply token_keeps; [exact ET|exact G1]|exact IS|]. eapply (proj2 (keeps_dispatch c buf spec)); eassumption.
  - eapply step_skip; [exact E|exact N|apply token_keeps; [exact ET|exact G]].
  - apply step_found. exact C.
Qed.
Lemma steps_keeps : forall c q n p p', steps c n p p' -> eofb (stream_of p') = false -> steps c n (pmore q p) (pmore q p').
Proof.
  intros c q n p p' H. induction H as [p|n p r p' H1 H2 IH]; intro G; [constructor|].
  econstructor; [|apply IH; exact G]. eapply step_keeps; [exact H1|]. eapply eof_before; [eapply steps_adv; exact H2|exact G].
Qed.

(** Whatever is appended, an endless loop stays one. *)
Theorem hang_more : forall c p q, load_msh c p = Diverge -> load_msh c (p ++ q) = Diverge.
Proof.
  intros c p q H. apply diverge_iff_stuck in H. destruct H as (pt & [n R] & ST). apply diverge_iff_stuck.
  exists (pmore q pt). split.
  - exists n. rewrite start_pmore. apply steps_keeps; [exact R|apply ST].
  - rewrite stream_pmore. exact ST.
Qed.
