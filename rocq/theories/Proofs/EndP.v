(** A stream that says it is at its end has no characters left. *)

From Verif Require Import Model.Streams Spec.Steps Proofs.BytesP Proofs.RtBase Proofs.Mono Proofs.Fuel Proofs.File22P Proofs.Reach Proofs.Compose.
From Verif Require Import Spec.Consistent Spec.Consistent22 Proofs.Rt41 Proofs.Rt22 Proofs.Final Proofs.Final22.

Definition ended (s : istream) : Prop := eofb s = true -> rest s = [].
Definition ends {A} (m : M A) : Prop := forall s a s', ended s -> m s = Ok (a, s') -> ended s'.

Lemma ends_bind : forall A B (m : M A) (f : A -> M B), ends m -> (forall a, ends (f a)) -> ends (bind m f).
Proof.
  intros A B m f Hm Hf s b s' I H. unfold bind in H. destruct (m s) as [[a s1]|e|u| |] eqn:E; try discriminate.
  eapply Hf; [|exact H]. eapply Hm; [exact I|exact E].
Qed.
Lemma ends_ret : forall A (a : A), ends (ret a).
Proof. intros A a s b s' I H. injection H as _ <-. exact I. Qed.
Lemma ends_throw : forall A e, ends (@throw A e).
Proof. intros A e s b s' I H. discriminate. Qed.
Lemma ends_undef : forall A e, ends (@undef A e).
Proof. intros A e s b s' I H. discriminate. Qed.
Lemma ends_lift : forall A (o : outcome A), ends (lift o).
Proof. intros A o s a s' I H. destruct o; try discriminate. injection H as _ <-. exact I. Qed.
Lemma ends_use : forall A (o : option A), ends (use o).
Proof. intros A [a|]; [apply ends_ret|apply ends_undef]. Qed.
Lemma ends_massert : forall c b, ends (massert c b).
Proof. intros c b s a s' I H. unfold massert in H. destruct (ndebug c), b; try discriminate; injection H as _ <-; exact I. Qed.
Lemma ends_assert_good : forall c, ends (assert_good c).
Proof. intros c s a s' I H. eapply ends_massert; [exact I|exact H]. Qed.
Lemma ends_mapM : forall A B (f : A -> M B) l, (forall x, ends (f x)) -> ends (mapM f l).
Proof.
  intros A B f l H. induction l as [|x l IH]; cbn [mapM]; [apply ends_ret|].
  apply ends_bind; [apply H|]. intro y. apply ends_bind; [exact IH|]. intro. apply ends_ret.
Qed.
Lemma ends_iterM : forall S n (f : S -> M S), (forall s, ends (f s)) -> forall s, ends (iterM n f s).
Proof. intros S n f H. induction n as [|n IH]; intro s; cbn [iterM]; [apply ends_ret|]. apply ends_bind; [apply H|exact IH]. Qed.
Lemma ends_fill : forall A cnt (f : A -> M A) v, (forall x, ends (f x)) -> ends (fill cnt f v).
Proof. intros. unfold fill. destruct (cnt =? zlen v); [apply ends_mapM; assumption|apply ends_undef]. Qed.
Lemma ends_op : forall A (f : istream -> A * istream), (forall s, ended s -> ended (snd (f s))) -> ends (op f).
Proof. intros A f H s a s' I E. unfold op in E. injection E as E. specialize (H s I). rewrite E in H. exact H. Qed.

(** ** Single reads *)

Lemma ended_fail : forall s, ended s -> ended (set_fail s).
Proof. intros s I. exact I. Qed.
Lemma ended_sentry : forall s, ended s -> ended (snd (sentry s)) /\ (fst (sentry s) = true -> eofb (snd (sentry s)) = false).
Proof.
  intros s I. destruct (sentry_cases s) as [(G & _ & E)|[(G & _ & E)|(G & E)]]; rewrite E; cbn [fst snd].
  - apply good_flags in G. destruct G as [G1 G2]. split; [intro H; cbn in H; congruence|intros _; exact G1].
  - split; [intros _; reflexivity|discriminate].
  - split; [exact I|discriminate].
Qed.
Lemma ended_at_end : forall r s, eofb s = false -> ended (at_end r s).
Proof. intros [|x r] s E; cbn [at_end]; intro H; [reflexivity|]. cbn in H. congruence. Qed.
Lemma ended_token : forall o s, ended s -> ended (snd (rd_token o s)).
Proof.
  intros o s I. unfold rd_token. destruct (ended_sentry s I) as [I1 E]. destruct (sentry s) as [[] s1]; cbn [fst snd] in *; [|exact I1].
  destruct (take_token (rest s1)). apply ended_at_end. auto.
Qed.
Lemma ended_num : forall A (e : bytes -> A * bool * bytes) o s, ended s -> ended (snd (rd_num e o s)).
Proof.
  intros A e o s I. unfold rd_num. destruct (ended_sentry s I) as [I1 E]. destruct (sentry s) as [[] s1]; cbn [fst snd] in *; [|exact I1].
  destruct (e (rest s1)) as [[v fl] r]. cbn [snd]. pose proof (ended_at_end r s1 (E eq_refl)) as P.
  destruct fl; [apply ended_fail|]; exact P.
Qed.
Lemma ended_num_opt : forall A (e : bytes -> A * bool * bytes) o s, ended s -> ended (snd (rd_num_opt e o s)).
Proof.
  intros A e o s I. unfold rd_num_opt. destruct (ended_sentry s I) as [I1 E]. destruct (sentry s) as [[] s1]; cbn [fst snd] in *; [|exact I1].
  destruct (e (rest s1)) as [[v fl] r]. cbn [snd]. pose proof (ended_at_end r s1 (E eq_refl)) as P.
  destruct fl; [apply ended_fail|]; exact P.
Qed.
Lemma ended_quoted : forall o s, ended s -> ended (snd (rd_quoted o s)).
Proof.
  intros o s I. unfold rd_quoted. destruct (ended_sentry s I) as [I1 E]. destruct (sentry s) as [[] s1]; cbn [fst snd] in *; [|exact I1].
  specialize (E eq_refl). destruct (rest s1) as [|x b] eqn:R; [apply ended_token; exact I1|].
  destruct x; try (apply ended_token; exact I1).
  destruct (unquote b) as [t [r|]]; cbn [snd]; intro H; [cbn in H; congruence|reflexivity].
Qed.
Lemma ended_noskip : forall s, ended s -> ended (snd (sentry_noskip s)).
Proof. intros s I. unfold sentry_noskip. destruct (good s); exact I. Qed.
Lemma ended_peek : forall s, ended s -> ended (snd (peek s)).
Proof.
  intros s I. unfold peek. pose proof (ended_noskip s I) as I1. destruct (sentry_noskip s) as [[] s1]; cbn [snd] in *; [|exact I1].
  destruct (rest s1) eqn:R; cbn [snd]; [intros _; exact R|exact I1].
Qed.
Lemma ended_get : forall s, ended s -> ended (get_char s).
Proof.
  intros s I. unfold get_char, sentry_noskip. destruct (good s) eqn:G; [|exact I].
  apply good_flags in G. destruct (rest s) eqn:R; [intros _; reflexivity|]. intro H. cbn in H. destruct G. congruence.
Qed.
Lemma ended_raw : forall o s, ended s -> ended (snd (rd_raw o s)).
Proof.
  intros o s I. unfold rd_raw, sentry_noskip. destruct (good s) eqn:G; [|exact I].
  destruct (_ <? _)%nat; cbn [snd]; [intros _; reflexivity|]. intro H. cbn in H. apply good_flags in G. destruct G. congruence.
Qed.

Lemma ends_token : forall o, ends (op (rd_token o)).
Proof. intro. apply ends_op. intros. apply ended_token. assumption. Qed.
Lemma ends_quoted : forall o, ends (op (rd_quoted o)).
Proof. intro. apply ends_op. intros. apply ended_quoted. assumption. Qed.
Lemma ends_int : forall o, ends (op (rd_int o)).
Proof. intro. apply ends_op. intros. apply ended_num. assumption. Qed.
Lemma ends_size : forall o, ends (op (rd_size o)).
Proof. intro. apply ends_op. intros. apply ended_num. assumption. Qed.
Lemma ends_double : forall o, ends (op (rd_double o)).
Proof. intro. apply ends_op. intros. apply ended_num. assumption. Qed.
Lemma ends_int_opt : forall o, ends (op (rd_int_opt o)).
Proof. intro. apply ends_op. intros. apply ended_num_opt. assumption. Qed.
Lemma ends_size_opt : forall o, ends (op (rd_size_opt o)).
Proof. intro. apply ends_op. intros. apply ended_num_opt. assumption. Qed.
Lemma ends_eat1 : ends (op eat1).
Proof.
  apply ends_op. intros s I. unfold eat1. pose proof (ended_peek s I) as P. destruct (peek s) as [c s1]. cbn [snd] in P.
  destruct (is_eaten c); cbn [snd]; [|exact P]. apply ended_peek, ended_get, P.
Qed.
Lemma ended_eat_loop : forall f c s, ended s -> ended (eat_all_loop f c s).
Proof.
  induction f as [|f IH]; intros c s I; cbn [eat_all_loop]; [exact I|]. destruct (is_eaten c); [|exact I].
  pose proof (ended_peek _ (ended_get s I)) as P. destruct (peek (get_char s)) as [c' s']. apply IH. exact P.
Qed.
Lemma ends_eat_all : ends (op eat_all).
Proof.
  apply ends_op. intros s I. unfold eat_all. pose proof (ended_peek s I) as P. destruct (peek s) as [c s1]. cbn [snd] in *.
  apply ended_eat_loop. exact P.
Qed.
Lemma ended_raw_size : forall o s, ended s -> ended (snd (rd_raw_size o s)).
Proof. intros o s I. unfold rd_raw_size. pose proof (ended_raw (le 8 o) s I) as P. destruct (rd_raw (le 8 o) s) as [[b k] s']. exact P. Qed.
Lemma ended_raw_int : forall o s, ended s -> ended (snd (rd_raw_int o s)).
Proof. intros o s I. unfold rd_raw_int. pose proof (ended_raw (le 4 o) s I) as P. destruct (rd_raw (le 4 o) s) as [[b k] s']. exact P. Qed.
Lemma ends_raw_size : forall o, ends (op (rd_raw_size o)).
Proof. intro. apply ends_op. intros. apply ended_raw_size. assumption. Qed.
Lemma ends_raw_double : forall o, ends (op (rd_raw_double o)).
Proof. exact ends_raw_size. Qed.
Lemma ends_raw_int : forall o, ends (op (rd_raw_int o)).
Proof. intro. apply ends_op. intros. apply ended_raw_int. assumption. Qed.
Lemma ends_raw_int_opt : forall o, ends (op (rd_raw_int_opt o)).
Proof.
  intros [v|]; apply ends_op; intros s I; unfold rd_raw_int_opt.
  - pose proof (ended_raw_int v s I) as P. destruct (rd_raw_int v s). exact P.
  - pose proof (ended_raw (repeat x00 4) s I) as P. destruct (rd_raw (repeat x00 4) s) as [[b k] s']. exact P.
Qed.
Lemma ends_raw_size_opt : forall o, ends (op (rd_raw_size_opt o)).
Proof.
  intros [v|]; apply ends_op; intros s I; unfold rd_raw_size_opt.
  - pose proof (ended_raw_size v s I) as P. destruct (rd_raw_size v s). exact P.
  - pose proof (ended_raw (repeat x00 8) s I) as P. destruct (rd_raw (repeat x00 8) s) as [[b k] s']. exact P.
Qed.
Lemma ends_array : forall f, (forall o, ends (op (f o))) -> forall l, ends (rd_raw_array f l).
Proof.
  intros f H l. unfold rd_raw_array. apply ends_bind; [|intro; apply ends_mapM; exact H].
  apply ends_op. intros s I. pose proof (ended_noskip s I) as P. destruct (sentry_noskip s). exact P.
Qed.

Ltac ends1 :=
  first
  [ apply ends_ret | apply ends_throw | apply ends_undef | apply ends_lift | apply ends_use
  | apply ends_massert | apply ends_assert_good
  | apply ends_token | apply ends_int | apply ends_size | apply ends_double
  | apply ends_int_opt | apply ends_size_opt | apply ends_quoted
  | apply ends_eat1 | apply ends_eat_all
  | apply ends_raw_size | apply ends_raw_double | apply ends_raw_int
  | apply ends_raw_int_opt | apply ends_raw_size_opt
  | apply (ends_array rd_raw_size); exact ends_raw_size | apply (ends_array rd_raw_double); exact ends_raw_double
  | apply (ends_array rd_raw_int); exact ends_raw_int
  | (apply ends_mapM; intro) | (apply ends_fill; intro) | (apply ends_iterM; intro)
  | apply ends_bind; [|intro] ].
Ltac ends_go :=
  repeat first [ ends1 | match goal with
    | |- ends (if ?b then _ else _) => destruct b
    | |- ends (let (_, _) := ?p in _) => destruct p
    | |- ends (match ?l with [] => _ | _ => _ end) => destruct l
    end ].

(** ** Sections *)

Lemma ends_nodes : forall c spec, ends (load_nodes c spec).
Proof.
  intros. unfold load_nodes, v41_load_nodes_ascii, v41_load_nodes_binary, v22_load_nodes_ascii,
    v22_load_nodes_binary, v41_node_block_ascii, v41_node_block_binary, v22_node_ascii, v22_node_binary, rd_raw_into.
  ends_go.
Qed.
Lemma ends_entities : forall c spec, ends (load_entities c spec).
Proof.
  intros. unfold load_entities, v41_load_entities_ascii, v41_load_entities_binary, resize_entities,
    point_ascii, point_binary, entity_ascii, entity_binary, ints_ascii, ints_binary. ends_go.
Qed.
Lemma ends_data : forall c v b e, ends (load_data c v b e).
Proof. intros. unfold load_data, load_data_header, entry_binary, entry_ascii. ends_go. Qed.
Lemma ends_elements_loop : forall f c N st, ends (v22_elements_loop f c N st).
Proof.
  induction f as [|f IH]; intros c N st; cbn [v22_elements_loop].
  - intros s a s' I H. discriminate.
  - destruct (vb_done st =? N); [apply ends_ret|]. unfold v22_element_binary.
    repeat first [apply IH | ends1 | match goal with
    | |- ends (if ?b then _ else _) => destruct b
    | |- ends (let (_, _) := ?p in _) => destruct p
    end].
Qed.
Lemma ends_elements : forall c spec, ends (load_elements c spec).
Proof.
  intros. unfold load_elements, v41_load_elements_ascii, v41_load_elements_binary,
    v22_load_elements_ascii, v22_load_elements_binary, v41_element_block_ascii,
    v41_element_block_binary, v22_element_ascii.
  ends_go. intros s' x s'' I H. eapply ends_elements_loop; [exact I|exact H].
Qed.
Lemma ends_dispatch : forall c buf spec, ends (dispatch c buf spec).
Proof.
  intros. unfold dispatch.
  repeat match goal with |- ends (if ?b then _ else _) => destruct b end.
  - unfold load_mesh_format. ends_go.
  - apply ends_entities.
  - unfold load_physical_groups, load_group. ends_go.
  - apply ends_nodes.
  - apply ends_elements.
  - unfold load_node_data. apply ends_bind; [apply ends_data|intro; apply ends_ret].
  - unfold load_element_data. apply ends_bind; [apply ends_data|intro; apply ends_ret].
  - unfold load_element_node_data. apply ends_bind; [apply ends_data|intro; apply ends_ret].
  - unfold load_nanospline_format. ends_go.
  - unfold load_curves, load_curve. ends_go.
  - unfold load_patches, load_patch. ends_go.
  - apply ends_ret.
Qed.

(** ** The section loop *)

Lemma step_ends : forall c p p', step c p p' -> ended (stream_of p) -> ended (stream_of p').
Proof.
  intros c p p' H I. destruct H as [spec s buf s1 E ET IS|spec s buf s1 spec' s2 E ET IS ED
    |flag buf spec s buf' s' E N ET|flag buf spec s C]; cbn [stream_of] in *.
  - pose proof (ended_token [] s I) as P. rewrite ET in P. exact P.
  - pose proof (ended_token [] s I) as P. rewrite ET in P. eapply ends_dispatch; [exact P|exact ED].
  - pose proof (ended_token buf s I) as P. rewrite ET in P. exact P.
  - exact I.
Qed.
Lemma steps_ends : forall c n p p', steps c n p p' -> ended (stream_of p) -> ended (stream_of p').
Proof. intros c n p p' H. induction H as [p|n p r p' H1 H2 IH]; intro I; [exact I|]. apply IH. eapply step_ends; eassumption. Qed.

Theorem stream_end : forall c s spec s', load_stream c s = Ok (spec, s') -> eofb s' = true /\ (good s = true -> rest s' = []).
Proof.
  intros c s spec s' H. unfold load_stream in H.
  destruct (load_loop _ c spec_default s) as [[sp s1]| | | |] eqn:E; try discriminate. cbn [obind fst snd] in H.
  destruct (post_process c sp); try discriminate. injection H as _ <-.
  destruct (loop_steps _ _ _ _ _ _ E) as (n & R & EE). split; [exact EE|]. intro G.
  apply (steps_ends _ _ _ _ R); [|exact EE]. cbn [stream_of]. intro X. apply good_flags in G. destruct G. congruence.
Qed.

Theorem stream_eof : forall c s, eofb s = true -> load_stream c s = Ok (spec_default, s).
Proof. intros c s E. unfold load_stream. cbn [load_loop]. rewrite E. reflexivity. Qed.

Theorem stream_stuck : forall c s, stuck s ->
  load_stream c s = Diverge /\ forall n, exists p, steps c n (Main spec_default s) p.
Proof.
  intros c s H. split.
  - unfold load_stream. rewrite load_stuck by exact H. reflexivity.
  - intro n. destruct (stuck_forever c n (Main spec_default s) H) as (q & Q & _). eauto.
Qed.

Theorem stream_good : forall c s, good s = true ->
  load_msh c (rest s) = obind (load_stream c s) (fun r => Ok (fst r)).
Proof.
  intros c [r e f] G. apply good_flags in G. cbn in G. destruct G; subst e f. unfold load_msh, load_msh_fuel, load_stream.
  cbn [rest]. fold (opened r). destruct (load_loop _ c spec_default (opened r)) as [[sp s1]| | | |]; try reflexivity.
  cbn [obind fst snd]. destruct (post_process c sp); reflexivity.
Qed.

(** After a sequence of complete sections, the last attempt to read a word
    fails. *)
Theorem stream_complete : forall c b spec, complete c b spec ->
  load_stream c (opened b) = obind (post_process c spec) (fun sp => Ok (sp, {| rest := []; eofb := true; failb := true |})).
Proof.
  intros c b spec H. destruct (H []) as (u & W & R). rewrite !app_nil_r in R.
  assert (F : finishes c (Main spec (opened u)) (Ok (spec, {| rest := []; eofb := true; failb := true |}))).
  { split; [discriminate|]. exists 2%nat. exact (load_loop_end 0 c spec u W). }
  destruct R as (n & R). apply (finishes_steps c n _ _ R) in F. destruct F as [_ (f & F)]. cbn [start run] in F.
  unfold load_stream. destruct (load_enough (S (S (List.length b))) c spec_default (opened b)) as [N|(p & m & _ & _ & D)].
  - cbn [opened rest]. lia.
  - pose proof (load_ok_mono _ c spec_default (opened b) _ eq_refl N (S (S (List.length b)) + f) ltac:(lia)) as L.
    rewrite (load_ok_mono f c spec_default (opened b) _ F) in L; [|discriminate|lia].
    cbn [opened rest] in *. rewrite <- L. reflexivity.
  - rewrite D in F. discriminate.
Qed.

Theorem stream_saved : forall c a s, consistent41 c a s \/ consistent22 c a s ->
  exists b spec, save_msh c s = (b, Ok tt) /\
    load_stream c (opened b) = Ok (spec, {| rest := []; eofb := true; failb := true |}).
Proof.
  intros c a s [K|K].
  - destruct (piece41 c a s K) as (b & E & L). destruct (rt41 a) as (r & _ & R). destruct (R c s K) as (b' & E' & LD).
    rewrite E in E'. injection E' as <-. exists b. pose proof (stream_complete _ _ _ (LOADS_complete _ _ _ L)) as P.
    rewrite (LOADS_file _ _ _ L) in LD. rewrite LD in P. eexists. split; [exact E|exact P].
  - destruct (piece22 c a s K) as (b & E & L). destruct (rt22 a) as (r & _ & R). destruct (R c s K) as (b' & s' & E' & LD & _).
    rewrite E in E'. injection E' as <-. exists b. pose proof (stream_complete _ _ _ (LOADS_complete _ _ _ L)) as P.
    rewrite (LOADS_file _ _ _ L) in LD. rewrite LD in P. eexists. split; [exact E|exact P].
Qed.
