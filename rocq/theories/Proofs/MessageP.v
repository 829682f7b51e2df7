(** What the exceptions of load_msh say. *)

From Verif Require Import Spec.Messages Model.LoadMsh Proofs.BytesP Proofs.HeaderP Proofs.Mono Proofs.Suffix Proofs.Reach Proofs.Load22P Proofs.LoadedP Proofs.File22P Proofs.HazardsP.

Ltac Zify.zify_post_hook ::= idtac.

(** ** The version of the spec being read is one of the two *)

Definition yields {A} (P : A -> Prop) (m : M A) : Prop := forall s a s', m s = Ok (a, s') -> P a.

Lemma yields_bind : forall A B (P : B -> Prop) (m : M A) (f : A -> M B), (forall a, yields P (f a)) -> yields P (bind m f).
Proof.
  intros A B P m f H s b s' E. unfold bind in E. destruct (m s) as [[a s1]| | | |]; try discriminate.
  exact (H a s1 b s' E).
Qed.

Lemma yields_ret : forall A (P : A -> Prop) a, P a -> yields P (ret a).
Proof. intros A P a H s b s' E. injection E as <- _. exact H. Qed.

Lemma yields_throw : forall A (P : A -> Prop) e, yields P (throw e).
Proof. intros A P e s b s' E. discriminate. Qed.

Definition known_version (spec : MshSpec) : Prop := v41 (mesh_format spec) \/ v22 (mesh_format spec).

Lemma dispatch_version : forall c name spec, known_version spec -> yields known_version (dispatch c name spec).
Proof.
  intros c name spec K. unfold dispatch.
  repeat match goal with |- yields _ (if _ then _ else _) => destruct (bytes_eqb _ _) end.
  - unfold load_mesh_format. cbv zeta. apply yields_bind. intro v.
    destruct (bytes_eqb v v22s) eqn:V2; destruct (bytes_eqb v v41s) eqn:V4; cbn [negb andb].
    4: apply yields_throw.
    all: apply yields_bind; intro ft; apply yields_bind; intro ds.
    all: try (destruct (negb (to_size ds =? 8)); [apply yields_throw|]).
    all: apply yields_bind; intros []; apply yields_ret.
    all: first [left; apply bytes_eqb_eq in V4; exact V4 | right; apply bytes_eqb_eq in V2; exact V2].
  - unfold load_entities. destruct (bytes_eqb _ _).
    + repeat (apply yields_bind; intro). apply yields_ret. exact K.
    + destruct (bytes_eqb _ _); [apply yields_throw|apply yields_ret; exact K].
  - unfold load_physical_groups. repeat (apply yields_bind; intro). apply yields_ret. exact K.
  - unfold load_nodes. repeat (apply yields_bind; intro). apply yields_ret. exact K.
  - unfold load_elements. repeat first [apply yields_throw | apply yields_ret; exact K | apply yields_bind; intro
      | match goal with |- yields _ (if ?b then _ else _) => destruct b end].
  - unfold load_node_data. repeat (apply yields_bind; intro). apply yields_ret. exact K.
  - unfold load_element_data. repeat (apply yields_bind; intro). apply yields_ret. exact K.
  - unfold load_element_node_data. repeat (apply yields_bind; intro). apply yields_ret. exact K.
  - unfold load_nanospline_format. repeat first [apply yields_throw | apply yields_ret; exact K | apply yields_bind; intro
      | match goal with |- yields _ (if ?b then _ else _) => destruct b end].
  - unfold load_curves. repeat first [apply yields_throw | apply yields_ret; exact K | apply yields_bind; intro
      | match goal with |- yields _ (if ?b then _ else _) => destruct b end].
  - unfold load_patches. repeat first [apply yields_throw | apply yields_ret; exact K | apply yields_bind; intro
      | match goal with |- yields _ (if ?b then _ else _) => destruct b end].
  - apply yields_ret. exact K.
Qed.

Definition point_spec (p : point) : MshSpec := match p with Main spec _ => spec | Fwd _ _ spec _ => spec end.

Lemma reached_version : forall c b p, reached c b p -> known_version (point_spec p).
Proof.
  intros c b p (n & R). assert (K : known_version (point_spec (start b))) by (left; reflexivity).
  revert K. induction R as [p|n p q r S _ IH]; intro K; [exact K|]. apply IH. clear IH.
  destruct S as [| ? ? ? ? ? ? _ _ _ D| |]; cbn [point_spec] in *; try exact K.
  exact (dispatch_version _ _ _ K _ _ _ D).
Qed.

Lemma meets_version : forall c b name spec s, meets c b name spec s -> known_version spec.
Proof. intros c b name spec s (s0 & R & _). exact (reached_version c b _ R). Qed.

(** ** Reasons *)

Lemma take_token_word : forall b t r, take_token b = (t, r) -> Forall (fun x => is_ws x = false) t /\ ends_word r.
Proof.
  induction b as [|x b IH]; intros t r H; cbn [take_token] in H; [injection H as <- <-; split; [constructor|exact I]|].
  destruct (is_ws x) eqn:W; [injection H as <- <-; split; [constructor|exact W]|].
  destruct (take_token b) as [t' r'] eqn:E. injection H as <- <-. destruct (IH _ _ eq_refl) as (A & B).
  split; [constructor; assumption|exact B].
Qed.

Lemma skip_ws_blank : forall b, exists w, b = w ++ skip_ws b /\ blank w.
Proof.
  induction b as [|x b (w & E & W)]; cbn [skip_ws]; [exists []; split; [reflexivity|constructor]|].
  destruct (is_ws x) eqn:X; [|exists []; split; [reflexivity|constructor]].
  exists (x :: w). split; [cbn [app]; congruence|constructor; assumption].
Qed.

Lemma skip_ws_head : forall b x r, skip_ws b = x :: r -> is_ws x = false.
Proof.
  induction b as [|y b IH]; intros x r H; cbn [skip_ws] in H; [discriminate|].
  destruct (is_ws y) eqn:Y; [exact (IH _ _ H)|]. injection H as <- _. exact Y.
Qed.

Lemma token_word : forall old s t s1, rd_token old s = (t, s1) ->
  t = old \/ exists w r, rest s = w ++ t ++ r /\ blank w /\ word t /\ ends_word r.
Proof.
  intros old s t s1 H. unfold rd_token in H.
  destruct (sentry_cases s) as [(G & N & E)|[(G & N & E)|(G & E)]]; rewrite E in H; cbn [with_rest IStream.rest] in H;
    try (injection H as <- _; left; reflexivity).
  destruct (take_token (skip_ws (rest s))) as [t' r] eqn:ET. injection H as -> _. right.
  destruct (skip_ws_blank (rest s)) as (w & W & B). exists w, r.
  destruct (take_token_word _ _ _ ET) as (T & R). pose proof (take_token_split _ _ _ ET) as SP.
  split; [rewrite <- SP; exact W|]. split; [exact B|]. split; [|exact R]. split; [|exact T].
  intro Z. subst t. destruct (skip_ws (rest s)) as [|x l] eqn:K; [congruence|]. cbn [app] in SP. subst r.
  pose proof (skip_ws_head _ _ _ K) as X. cbn [ends_word] in R. congruence.
Qed.

Section Load.
Variable c : cfg.
Notation D := (ndebug c = false).

Lemma header_reason : forall spec s, known_version spec ->
  bad D (fun e => reason (mesh_format spec) (rest s) "$MeshFormat" e) (fun _ => True) (load_mesh_format spec s).
Proof.
  intros spec s K. unfold load_mesh_format. cbv zeta. unfold bind at 1, op at 1.
  destruct (rd_token (version (mesh_format spec)) s) as [v s1] eqn:ET. cbn [fst snd].
  destruct (bytes_eqb v v22s) eqn:V2; destruct (bytes_eqb v v41s) eqn:V4; cbn [negb andb].
  4: { apply bytes_eqb_neq in V2, V4. destruct (token_word _ _ _ _ ET) as [->|(w & r & E & W & T & R)].
       - exfalso. destruct K as [K|K]; unfold v41, v22 in K; contradiction.
       - cbn [throw bad]. eapply version_unknown; eassumption. }
  all: match goal with |- bad _ _ _ (?m ?x) => enough (X : goes D (fun e => reason (mesh_format spec) (rest s) "$MeshFormat" e) (fun _ => True) m) by apply X end.
  all: apply goes_bind; [apply goes_op|]; intro ft; apply goes_bind; [apply goes_op|]; intro ds.
  all: try (destruct (Z.eqb_spec (to_size ds) 8); cbn [negb];
    [|apply goes_throw; apply size_wrong; intro; subst ds; contradiction]).
  all: apply goes_bind; [|intros []; apply goes_ret].
  all: destruct (negb (ft =? 0)); [|apply goes_ret].
  all: apply goes_bind; [apply goes_op|]; intros []; apply goes_bind; [apply goes_op|]; intro one.
  all: destruct (negb (one =? 1)); [|apply goes_ret].
  all: apply goes_throw; apply order_wrong.
  all: first [apply bytes_eqb_eq in V2; left; exact V2 | apply bytes_eqb_eq in V4; right; exact V4].
Qed.

Lemma refusal_reason : forall f r w e, v41 f \/ v22 f -> w <> "$MeshFormat"%string -> refusal c f w e -> memory e \/ reason f r w e.
Proof.
  intros f r w e K N R. destruct R; try congruence; try (left; assumption); try (exfalso; tauto); right.
  - apply type_unknown; assumption.
  - apply count_exceeded; assumption.
  - apply entities_unknown; assumption.
  - apply tags_missing; assumption.
Qed.

Lemma dispatch_reason : forall name spec s, known_version spec ->
  bad D (fun e => memory e \/ exists w, name = str w /\ reason (mesh_format spec) (rest s) w e) (fun _ => True) (dispatch c name spec s).
Proof.
  intros name spec s K. destruct (bytes_eqb name (str "$MeshFormat")) eqn:N.
  - apply bytes_eqb_eq in N. subst name. change (dispatch c (str "$MeshFormat") spec) with (load_mesh_format spec).
    pose proof (header_reason spec s K) as H. destruct (load_mesh_format spec s); try exact H. cbn [bad] in *.
    right. exists "$MeshFormat"%string. split; [reflexivity|exact H].
  - apply bytes_eqb_neq in N. pose proof (dispatch_go c name spec s) as H. destruct (dispatch c name spec s); try exact H; cbn [bad] in *.
    + destruct H as (w & E & R).
      assert (NW : w <> "$MeshFormat"%string) by (intro Z; subst w; contradiction).
      destruct (refusal_reason _ (rest s) w _ K NW R) as [X|X].
      * left. exact X.
      * right. exists w. split; assumption.
    + exact I.
Qed.

Lemma post_memory : forall b raw, ends_with c b raw -> bad D memory (fun _ => True) (post_process c raw).
Proof.
  intros b raw EW. pose proof (spec_inv_ends c b raw EW) as SI. unfold post_process.
  assert (ML : memory LengthError) by (left; reflexivity). assert (MB : memory BadAlloc) by (right; reflexivity).
  destruct (bytes_eqb (version (mesh_format raw)) v22s); [|exact I].
  apply bad_obind; [apply regroup_nodes_go; auto; apply SI|].
  intros s' ES. apply regroup_elements_go; [exact ML|exact MB|].
  assert (EQ : elements s' = elements raw).
  { unfold regroup_nodes in ES. cbv zeta in ES. destruct (can_hold _ _ _ _) as [[]| | | |]; try discriminate. cbn [obind] in ES.
    destruct (ofold (mark_block _ _) _ _); try discriminate. cbn [obind] in ES.
    destruct (ofold _ (n_blocks (nodes raw)) _); try discriminate. cbn [obind] in ES. injection ES as <-. reflexivity. }
  rewrite EQ. apply SI.
Qed.

Theorem load_reason : forall b e, load_msh c b = Throw e ->
  memory e \/ exists w spec s, meets c b (str w) spec s /\ reason (mesh_format spec) (rest s) w e.
Proof.
  intros b e H.
  assert (B : bad D (fun e => memory e \/ exists w spec s, meets c b (str w) spec s /\ reason (mesh_format spec) (rest s) w e)
    (fun _ => True) (load_msh c b)).
  { unfold load_msh, load_msh_fuel. apply bad_obind.
    - apply (loop_go c b); [exists O; constructor|]. intros name spec s Mt.
      eapply bad_impl; [apply dispatch_reason; exact (meets_version _ _ _ _ _ Mt)| |]; cbv beta.
      + intros e' [M|(w & -> & R)]; [left; exact M|right]. exists w, spec, s. split; assumption.
      + trivial.
    - intros [raw s] EL. cbn [fst]. destruct (loop_steps _ _ _ _ _ _ EL) as (n & R & EE).
      assert (EW : ends_with c b raw) by (exists s; split; [exists n; exact R|exact EE]).
      eapply bad_impl; [exact (post_memory b raw EW)| |]; cbv beta; auto. }
  rewrite H in B. exact B.
Qed.
End Load.

Lemma c_str_cons : forall x m, x <> x00 -> c_str (x :: m) = x :: c_str m.
Proof. intros x m H. destruct x; try reflexivity. contradiction. Qed.

Lemma str_inj : forall a b : string, str a = str b -> a = b.
Proof.
  intros a b H. unfold str in H. rewrite <- (string_of_list_byte_of_string a), <- (string_of_list_byte_of_string b). congruence.
Qed.
