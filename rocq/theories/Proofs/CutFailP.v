(** What can go wrong when the end of a file is missing. *)

From Verif Require Import Model.LoadMsh Spec.Steps Spec.Prefix Spec.Files22 Spec.Hazards Spec.Weight Proofs.BytesP Proofs.Mono Proofs.Fuel Proofs.Hoare Proofs.WeightP Proofs.ExtP
  Proofs.ExtendP Proofs.PrefixP Proofs.File22P Proofs.Reach Proofs.HazardsP Proofs.KeepP.

Ltac Zify.zify_post_hook ::= idtac.

(** [y] fails as [x] does. *)
Definition fails_as {A} (x y : outcome A) : Prop :=
  match x with Throw e => y = Throw e | Undef u => y = Undef u | _ => True end.
Definition fails {A} (x : outcome A) : Prop := match x with Throw _ | Undef _ => True | _ => False end.

(** A failure is no matter of the end of the stream. *)
Definition firm {A} (m : M A) : Prop := forall s q, fails (m s) -> eofb s = false /\ fails_as (m s) (m (more q s)).
Definition guarded {A} (m : M A) : Prop := forall s q, good s = true -> fails_as (m s) (m (more q s)).

Lemma guarded_firm : forall A (m : M A), firm m -> guarded m.
Proof.
  intros A m H s q G. specialize (H s q). destruct (m s) eqn:E; cbn [fails_as fails] in *; auto; apply H; exact I.
Qed.
Lemma never_firm : forall A (m : M A), (forall s, ~ fails (m s)) -> firm m.
Proof. intros A m H s q F. elim (H s F). Qed.

Lemma firm_bind : forall A B (m : M A) (k : A -> M B), keeps m -> firm m -> (forall a, firm (k a)) -> firm (bind m k).
Proof.
  intros A B m k K F H s q X. specialize (F s q). unfold bind in *. destruct (m s) as [[a s1]|e|u| |] eqn:E; cbn [fails fails_as] in *; try contradiction.
  - destruct (H a s1 q X) as (E1 & Y). split; [eapply eof_before; [eapply (proj1 K); exact E|exact E1]|].
    rewrite (proj2 K _ _ _ q E E1). exact Y.
  - destruct (F I) as (E1 & ->). split; [exact E1|reflexivity].
  - destruct (F I) as (E1 & ->). split; [exact E1|reflexivity].
Qed.
Lemma guarded_bind : forall A B (m : M A) (k : A -> M B), keeps m -> guarded m -> (forall a, firm (k a)) -> guarded (bind m k).
Proof.
  intros A B m k K F H s q X. specialize (F s q X). unfold bind in *. destruct (m s) as [[a s1]|e|u| |] eqn:E; cbn [fails_as] in *; try exact I.
  - specialize (H a s1 q). destruct (k a s1) eqn:EK; cbn [fails fails_as] in *; try exact I;
      (destruct (H I) as (E1 & Y); rewrite (proj2 K _ _ _ q E E1); exact Y).
  - rewrite F. reflexivity.
  - rewrite F. reflexivity.
Qed.
Lemma guarded_lift : forall A B (x : outcome A) (k : A -> M B), (forall a, guarded (k a)) -> guarded (bind (lift x) k).
Proof.
  intros A B x k H s q G. unfold bind, lift. destruct x; cbn [fails_as]; try exact I; try reflexivity. apply H. exact G.
Qed.
Lemma guarded_massert : forall c A b (k : unit -> M A), (forall a, guarded (k a)) -> guarded (bind (massert c b) k).
Proof. intros c A b k H s q G. unfold bind, massert. destruct (ndebug c), b; try apply H; try exact G; exact I. Qed.
Lemma guarded_undef : forall A u, guarded (@undef A u).
Proof. intros A u s q G. reflexivity. Qed.
Lemma firm_check : forall c A (k : unit -> M A), ndebug c = false -> (forall a, guarded (k a)) -> firm (bind (assert_good c) k).
Proof.
  intros c A k D H s q F. unfold bind, assert_good, massert in *. rewrite good_more. rewrite D in *. destruct (good s) eqn:G; [|contradiction].
  split; [apply good_eof; exact G|apply H; exact G].
Qed.
Lemma firm_op : forall A (f : istream -> A * istream), firm (op f).
Proof. intros. apply never_firm. intros s F. exact F. Qed.
Lemma firm_ret : forall A (a : A), firm (ret a).
Proof. intros. apply never_firm. intros s F. exact F. Qed.
Lemma firm_mapM : forall A B (f : A -> M B) l, (forall x, keeps (f x)) -> (forall x, firm (f x)) -> firm (mapM f l).
Proof.
  intros A B f l K H. induction l as [|x l IH]; cbn [mapM]; [apply firm_ret|].
  apply firm_bind; [apply K|apply H|]. intro y. apply firm_bind; [apply keeps_mapM; exact K|exact IH|]. intro. apply firm_ret.
Qed.
Lemma firm_array : forall f l, firm (rd_raw_array f l).
Proof.
  intros. apply never_firm. intros s F. unfold rd_raw_array, bind, op in F. destruct (sentry_noskip s) as [ok s1].
  assert (X : forall s, ~ fails (mapM (fun o => op (f o)) l s)).
  { clear. induction l as [|x l IH]; intros s F; cbn [mapM] in F; [exact F|]. unfold bind in F. unfold op in F at 1. destruct (f x s) as [y s1].
    specialize (IH s1). destruct (mapM _ l s1) as [[? ?]| | | |]; auto. }
  exact (X _ F).
Qed.

Section Debug.
Variable c : cfg.
Hypothesis D : ndebug c = false.

Ltac firm1 := first [apply firm_bind; [first [assumption|unfold rd_raw_into; keeps_go]|first [apply firm_op|apply firm_array]|intro] | apply firm_ret
  | (apply firm_check; [exact D|intro])].

Lemma block_text_firm : forall b, firm (v41_node_block_ascii c b).
Proof.
  intro b. unfold v41_node_block_ascii. do 5 firm1. apply guarded_lift; intro. apply guarded_firm.
  apply firm_bind; [keeps_go|apply firm_mapM; [intro; keeps_go|intro; apply firm_op]|intro]. firm1.
  apply guarded_massert; intro. do 2 (apply guarded_lift; intro). apply guarded_bind; [keeps_go| |intro; firm1; apply guarded_firm, firm_ret].
  unfold fill. destruct (_ =? _); [|apply guarded_undef]. apply guarded_firm, firm_mapM; [intro; keeps_go|intro; apply firm_op].
Qed.
Lemma into_guarded : forall sz n f v, (forall l, keeps (rd_raw_array f l)) -> guarded (rd_raw_into sz n f v).
Proof. intros sz n f v K. unfold rd_raw_into. destruct (_ <? _); [apply guarded_undef|]. apply guarded_firm. apply firm_bind; [apply K|apply firm_array|intro; apply firm_ret]. Qed.
Lemma block_binary_firm : forall b, firm (v41_node_block_binary c b).
Proof.
  intro b. unfold v41_node_block_binary. do 5 firm1. apply guarded_lift; intro.
  apply guarded_bind; [unfold rd_raw_into; keeps_go|apply into_guarded; intro; apply keeps_array; exact keeps_raw_size|intro]. firm1.
  do 2 (apply guarded_lift; intro).
  apply guarded_bind; [unfold rd_raw_into; keeps_go|apply into_guarded; intro; apply keeps_array; exact keeps_raw_double|intro]. firm1.
  apply guarded_firm, firm_ret.
Qed.
Lemma nodes_text_firm : forall n, firm (v41_load_nodes_ascii c n).
Proof.
  intro n. unfold v41_load_nodes_ascii. do 5 firm1. apply guarded_lift; intro. apply guarded_firm.
  assert (K : forall x, keeps (v41_node_block_ascii c x)) by (intro; unfold v41_node_block_ascii; keeps_go).
  apply firm_bind; [apply keeps_mapM, K|apply firm_mapM; [exact K|exact block_text_firm]|intro; apply firm_ret].
Qed.
Lemma nodes_binary_firm : forall n, firm (v41_load_nodes_binary c n).
Proof.
  intro n. unfold v41_load_nodes_binary. do 6 firm1. apply guarded_lift; intro. apply guarded_firm.
  assert (K : forall x, keeps (v41_node_block_binary c x)) by (intro; unfold v41_node_block_binary, rd_raw_into; keeps_go).
  apply firm_bind; [apply keeps_mapM, K|apply firm_mapM; [exact K|exact block_binary_firm]|intro; apply firm_ret].
Qed.
Lemma nodes_firm : forall spec, version (mesh_format spec) = str "4.1" -> firm (load_nodes c spec).
Proof.
  intros spec V. apply (bytes_eqb_eq _ v41s) in V. unfold load_nodes. cbv zeta. rewrite V.
  assert (K1 : forall n, keeps (v41_load_nodes_ascii c n)) by (intro; unfold v41_load_nodes_ascii, v41_node_block_ascii; keeps_go).
  assert (K2 : forall n, keeps (v41_load_nodes_binary c n)) by (intro; unfold v41_load_nodes_binary, v41_node_block_binary, rd_raw_into; keeps_go).
  destruct (file_type _ =? 0); (apply firm_bind; [auto|first [apply nodes_text_firm|apply nodes_binary_firm]|intro; apply firm_ret]).
Qed.
End Debug.

(** ** Where a failure comes from *)
Lemma fail_source : forall c b, fails (load_msh c b) ->
  (exists name spec s, meets c b name spec s /\ is_section name = true /\ failed (dispatch c name spec s) (load_msh c b)) \/
  exists raw, ends_with c b raw /\ version (mesh_format raw) = str "2.2".
Proof.
  intros c b F. unfold load_msh, load_msh_fuel in F |- *.
  pose proof (loop_go c b (S (S (List.length b))) spec_default (opened b)
    (fun e => exists name spec s, meets c b name spec s /\ is_section name = true /\ dispatch c name spec s = Throw e)
    (fun u => exists name spec s, meets c b name spec s /\ is_section name = true /\ dispatch c name spec s = Undef u)) as G.
  assert (H : reached c b (Main spec_default (opened b))) by (exists O; constructor). specialize (G H). clear H.
  assert (X : forall name spec s, fails (dispatch c name spec s) -> is_section name = true).
  { intros name spec s E. destruct (is_section name) eqn:IS; [reflexivity|]. exfalso. unfold dispatch in E.
    repeat match type of E with context [bytes_eqb name ?w] => let EB := fresh in destruct (bytes_eqb name w) eqn:EB;
      [apply bytes_eqb_eq in EB; subst name; discriminate|] end. exact E. }
  assert (H : bad (ndebug c = false)
    (fun e => exists name spec s, meets c b name spec s /\ is_section name = true /\ dispatch c name spec s = Throw e)
    (fun u => exists name spec s, meets c b name spec s /\ is_section name = true /\ dispatch c name spec s = Undef u)
    (load_loop (S (S (List.length b))) c spec_default (opened b))).
  { apply G. intros name spec s Mt. specialize (X name spec s). pose proof (dispatch_go c name spec s) as DG.
    destruct (dispatch c name spec s) eqn:E; cbn [bad fails] in *; try exact I; try exact DG; exists name, spec, s; auto. }
  clear G X. destruct (load_loop (S (S (List.length b))) c spec_default (opened b)) as [[raw st]|e|u| |] eqn:EL; cbn [obind fst bad fails] in *; try contradiction.
  - right. destruct (loop_steps _ _ _ _ _ _ EL) as (n & R & EE). exists raw. split; [exists st; split; [exists n; exact R|exact EE]|].
    unfold post_process in F. destruct (bytes_eqb (version (mesh_format raw)) v22s) eqn:V; [apply bytes_eqb_eq; exact V|exact (False_ind _ F)].
  - left. destruct H as (name & spec & s & Mt & IS & E). exists name, spec, s. rewrite E. repeat split; auto.
  - left. destruct H as (name & spec & s & Mt & IS & E). exists name, spec, s. rewrite E. repeat split; auto.
Qed.

(** ** The beginning of a good 4.1 file *)

(** A section met with the stream good is met in the whole file. *)
Lemma meets_more : forall c p q name spec s, meets c p name spec s -> eofb s = false -> meets c (p ++ q) name spec (more q s).
Proof.
  intros c p q name spec s (s0 & (n & R) & E & ET) EE. exists (more q s0). split; [|split].
  - exists n. rewrite start_pmore. apply (steps_keeps c q n (start p) (Main spec s0)); [exact R|exact E].
  - exact E.
  - eapply token_keeps; eassumption.
Qed.

Lemma load_ok_dispatch : forall c b x name spec s, load_msh c b = Ok x -> meets c b name spec s -> is_section name = true -> ~ fails (dispatch c name spec s).
Proof.
  intros c b x name spec s L Mt IS F.
  destruct (dispatch c name spec s) as [?|e|u| |] eqn:E; cbn [fails] in F; try contradiction.
  - rewrite (meets_fails c b name spec s (Throw e) Mt IS) in L; [discriminate|]. rewrite E. reflexivity.
  - rewrite (meets_fails c b name spec s (Undef u) Mt IS) in L; [discriminate|]. rewrite E. reflexivity.
Qed.

(** The version in force when a section is met is in force in the whole file. *)
Lemma version_more : forall c p q name spec s x, load_msh c (p ++ q) = Ok x -> never_22 c (p ++ q) -> meets c p name spec s ->
  version (mesh_format spec) <> str "2.2".
Proof.
  intros c p q name spec s x L N (s0 & (n & R) & E & ET). specialize (N (Main spec (more q s0))). apply N.
  exists n. rewrite start_pmore. apply (steps_keeps c q n (start p) (Main spec s0)); [exact R|exact E].
Qed.

Lemma versions : forall c n p p', steps c n p p' ->
  version (mesh_format (read_at p)) = str "2.2" \/ version (mesh_format (read_at p)) = str "4.1" ->
  version (mesh_format (read_at p')) = str "2.2" \/ version (mesh_format (read_at p')) = str "4.1".
Proof.
  intros c n p p' H. induction H as [p|n p r p' H1 H2 IH]; intro V; [exact V|]. apply IH. clear IH H2.
  destruct H1 as [spec s buf s1 E ET IS|spec s buf s1 spec' s2 E ET IS ED
    |flag buf spec s buf' s' E N ET|flag buf spec s C]; cbn [read_at] in *; try exact V.
  destruct (bytes_eqb buf (str "$MeshFormat")) eqn:EM.
  - apply bytes_eqb_eq in EM. subst buf. change (dispatch c (str "$MeshFormat") spec) with (load_mesh_format spec) in ED.
    apply (format_version _ _ _ _ ED).
  - assert (P : post (dispatch c buf spec) (fun x => mesh_format x = mesh_format spec)).
    { unfold dispatch. rewrite EM.
      repeat match goal with |- post (if ?b then _ else _) _ => destruct b end;
        unfold load_entities, load_physical_groups, load_nodes, load_elements, load_node_data, load_element_data, load_element_node_data,
          load_nanospline_format, load_curves, load_patches; cbv zeta; post_frame ltac:(reflexivity). }
    rewrite (P _ _ _ ED). exact V.
Qed.

Section Cut.
Variables (c : cfg) (p q : bytes) (x : MshSpec).
Hypotheses (D : ndebug c = false) (N : never_22 c (p ++ q)) (L : load_msh c (p ++ q) = Ok x).

Lemma met_41 : forall name spec s, meets c p name spec s -> version (mesh_format spec) = str "4.1".
Proof.
  intros name spec s Mt. pose proof (version_more c p q name spec s x L N Mt) as V. destruct Mt as (s0 & (n & R) & _).
  destruct (versions _ _ _ _ R) as [X|X]; [right; reflexivity|elim V; exact X|exact X].
Qed.

Lemma end_41 : forall raw, ends_with c p raw -> version (mesh_format raw) <> str "2.2".
Proof.
  intros raw (st & (n & R) & E). destruct (last_good _ _ _ _ _ R E eq_refl) as (m & g & g' & S1 & G & S2 & B & <-).
  eapply last_version; try eassumption. exists m. exact S1.
Qed.

Lemma cut_41 : fails (load_msh c p) -> exists name spec s, meets c p name spec s /\ is_section name = true /\
  version (mesh_format spec) = str "4.1" /\ failed (dispatch c name spec s) (load_msh c p) /\ name <> str "$Nodes".
Proof.
  intro F. destruct (fail_source c p F) as [(name & spec & s & Mt & IS & FD)|(raw & EW & V)]; [|elim (end_41 raw EW V)].
  exists name, spec, s. split; [exact Mt|]. split; [exact IS|]. pose proof (met_41 _ _ _ Mt) as V. split; [exact V|]. split; [exact FD|].
  intros ->. change (dispatch c (str "$Nodes") spec s) with (load_nodes c spec s) in FD.
  assert (FN : fails (load_nodes c spec s)) by (destruct (load_nodes c spec s), (load_msh c p); cbn in *; auto).
  destruct (nodes_firm c D spec V s q FN) as (E1 & FA).
  apply (load_ok_dispatch c (p ++ q) x (str "$Nodes") spec (more q s) L); [apply meets_more; assumption|reflexivity|].
  change (fails (load_nodes c spec (more q s))).
  destruct (load_nodes c spec s); cbn [fails fails_as] in *; try contradiction; rewrite FA; exact I.
Qed.
End Cut.

(** The name of a section met may be cut short. *)
Lemma meets_longer : forall c p q name spec s, meets c p name spec s -> is_section name = true ->
  exists t s', meets c (p ++ q) (name ++ t) spec s'.
Proof.
  intros c p q name spec s (s0 & (n & R) & E & ET) IS.
  assert (G : good s0 = true).
  { destruct (good s0) eqn:G; [reflexivity|]. unfold rd_token, sentry in ET. rewrite G in ET. injection ET as <- _. discriminate. }
  destruct (rd_token_longer [] s0 q G) as [X|(t & X)]; rewrite ET in X; cbn [fst] in X; [subst name; discriminate|].
  exists t, (snd (rd_token [] (more q s0))), (more q s0). split; [|split].
  - exists n. rewrite start_pmore. apply (steps_keeps c q n (start p) (Main spec s0)); [exact R|exact E].
  - exact E.
  - rewrite <- X. destruct (rd_token [] (more q s0)). reflexivity.
Qed.

Lemma cut_hazard : forall c p q x u, ndebug c = false -> never_22 c (p ++ q) -> load_msh c (p ++ q) = Ok x -> load_msh c p = Undef u ->
  exists w spec s, meets c p (str w) spec s /\ is_section (str w) = true /\ v41 (mesh_format spec) /\ hazard c (mesh_format spec) w u /\ w <> "$Nodes"%string.
Proof.
  intros c p q x u D N L E. destruct (cut_41 c p q x D N L) as (name & spec & s & Mt & IS & V & F & NN); [rewrite E; exact I|].
  pose proof (dispatch_go c name spec s) as G. rewrite E in F. destruct (dispatch c name spec s); cbn [failed bad] in *; try contradiction. subst u0.
  destruct G as (w & -> & H). exists w, spec, s. repeat split; try assumption. intros ->. apply NN. reflexivity.
Qed.
Lemma cut_refusal : forall c p q x e, ndebug c = false -> never_22 c (p ++ q) -> load_msh c (p ++ q) = Ok x -> load_msh c p = Throw e ->
  exists w spec s, meets c p (str w) spec s /\ v41 (mesh_format spec) /\ refusal c (mesh_format spec) w e /\ w <> "$Nodes"%string.
Proof.
  intros c p q x e D N L E. destruct (cut_41 c p q x D N L) as (name & spec & s & Mt & IS & V & F & NN); [rewrite E; exact I|].
  pose proof (dispatch_go c name spec s) as G. rewrite E in F. destruct (dispatch c name spec s); cbn [failed bad] in *; try contradiction. subst e0.
  destruct G as (w & -> & H). exists w, spec, s. repeat split; try assumption. intros ->. apply NN. reflexivity.
Qed.

Lemma cut_binary : forall c p q x u, ndebug c = false -> never_22 c (p ++ q) ->
  (forall name spec s, meets c (p ++ q) name spec s -> name <> str "$MeshFormat" -> 0 < file_type (mesh_format spec)) ->
  load_msh c (p ++ q) = Ok x -> load_msh c p = Undef u -> u = Indeterminate.
Proof.
  intros c p q x u D N B L E. destruct (cut_hazard c p q x u D N L E) as (w & spec & s & Mt & IS & V & H & NN).
  destruct (meets_longer c p q _ _ _ Mt IS) as (t & s' & Mt'). specialize (B _ _ _ Mt').
  destruct H; try reflexivity; try congruence; try (unfold v41, v22 in *; congruence); exfalso.
  2:{ unfold v41 in V; unfold v22 in H; rewrite V in H. discriminate. }
  - unfold text in *. assert (X : str "$Elements" ++ t <> str "$MeshFormat") by discriminate. specialize (B X). lia.
  - assert (X : str "$ElementNodeData" ++ t <> str "$MeshFormat") by discriminate. specialize (B X). lia.
Qed.
