(** The same for version 2.2, where blocks are cut anew. *)

From Verif Require Import Model.LoadMsh Spec.Files22 Spec.Resave Proofs.BytesP Proofs.RtStep Proofs.Hoare Proofs.TriP
  Proofs.ExtP Proofs.PostP Proofs.Load22P Proofs.File22P Proofs.LoadedP Proofs.ResaveP.

Ltac Zify.zify_post_hook ::= idtac.

Lemma ofold_inv : forall A S (f : A -> S -> outcome S) (I : S -> Prop) l,
  (forall x s s', In x l -> I s -> f x s = Ok s' -> I s') -> forall s s', I s -> ofold f l s = Ok s' -> I s'.
Proof.
  intros A S f I l. induction l as [|x l IH]; intros H s s' HI E; cbn [ofold] in E; [injection E as <-; exact HI|].
  destruct (f x s) as [s1| | | |] eqn:E1; cbn [obind] in E; try discriminate.
  apply (IH (fun y t t' Hy => H y t t' (or_intror Hy)) s1); [|exact E]. exact (H x s s1 (or_introl eq_refl) HI E1).
Qed.

Lemma at_in : forall A (l : list A) i x (P : A -> Prop), at_ l i = Ok x -> Forall P l -> P x.
Proof.
  intros A l i x P E F. unfold at_ in E. destruct (i <? 0); [discriminate|]. destruct (nth_error l (Z.to_nat i)) as [y|] eqn:N; [|discriminate].
  injection E as <-. rewrite Forall_forall in F. apply F. exact (nth_error_In _ _ N).
Qed.

(** ** Nodes *)

Record node_block_cut (b : NodeBlock) : Prop := {
  nc_dim : int_ok (nb_dim b);
  nc_tag : int_ok (nb_tag b);
  nc_parametric : nb_parametric b = 0;
  nc_tags : Forall size_ok (nb_tags b);
  nc_vals : Forall size_ok (nb_data b);
  nc_data : zlen (nb_data b) = 3 * zlen (nb_tags b) }.

Lemma regroup_node_cut : forall c size mn a b i st st', node_block_loaded b -> Forall node_block_cut (rg_blocks st) ->
  regroup_node c size mn a b i st = Ok st' -> Forall node_block_cut (rg_blocks st').
Proof.
  intros c size mn a b i st st' HB HI E. unfold regroup_node in E.
  destruct (at_ (nb_tags b) i) as [t| | | |] eqn:ET; cbn [obind] in E; try discriminate.
  cbv zeta in E. destruct (size <=? _); [discriminate|]. destruct (a (to_size (t - mn))) as [dim tag].
  set (st1 := if negb (dim =? rg_dim st) || negb (tag =? rg_tag st) then _ else st) in E.
  assert (H1 : Forall node_block_cut (rg_blocks st1)).
  { unfold st1. destruct (negb _ || negb _); [|exact HI]. cbn [rg_blocks]. constructor; [|exact HI].
    split; cbn; try constructor; try apply to_int_range. }
  clearbody st1. destruct (rg_blocks st1) as [|cur others] eqn:EC; [destruct (ndebug c); discriminate|].
  destruct (at_ (nb_data b) (to_size (i * 3))) as [x| | | |] eqn:EX; cbn [obind] in E; try discriminate.
  destruct (at_ (nb_data b) (to_size (i * 3 + 1))) as [y| | | |] eqn:EY; cbn [obind] in E; try discriminate.
  destruct (at_ (nb_data b) (to_size (i * 3 + 2))) as [z| | | |] eqn:EZ; cbn [obind] in E; try discriminate.
  injection E as <-. cbn [rg_blocks]. inversion H1 as [|? ? HC HO]; subst. constructor; [|exact HO].
  destruct HC as [C1 C2 C3 C4 C5 C6]. destruct HB. unfold push_node. split; cbn [nb_dim nb_tag nb_parametric nb_num nb_tags nb_data]; try assumption.
  - apply Forall_app. split; [exact C4|]. constructor; [|constructor]. exact (at_in _ _ _ _ _ ET nl_tags).
  - apply Forall_app. split; [exact C5|]. constructor; [exact (at_in _ _ _ _ _ EX nl_vals)|].
    constructor; [exact (at_in _ _ _ _ _ EY nl_vals)|]. constructor; [exact (at_in _ _ _ _ _ EZ nl_vals)|constructor].
  - rewrite !zlen_app, C6. change (zlen [x; y; z]) with 3. change (zlen [t]) with 1. lia.
Qed.

Lemma regroup_nodes_cut : forall c raw s, Forall node_block_loaded (n_blocks (nodes raw)) -> regroup_nodes c raw = Ok s ->
  exists bs, s = set_nodes {| n_num_blocks := zlen bs; n_num_nodes := n_num_nodes (nodes raw); n_min := n_min (nodes raw);
                              n_max := n_max (nodes raw); n_blocks := bs |} raw /\
    Forall (fun b => node_block_cut b /\ nb_num b = zlen (nb_tags b)) bs.
Proof.
  intros c raw s HB E. unfold regroup_nodes in E. cbv zeta in E.
  destruct (can_hold _ _ _ _) as [[]| | | |]; cbn [obind] in E; try discriminate.
  destruct (ofold (mark_block _ _) _ _) as [a| | | |]; cbn [obind] in E; try discriminate.
  destruct (ofold _ (n_blocks (nodes raw)) _) as [st| | | |] eqn:ES; cbn [obind] in E; try discriminate.
  injection E as <-. eexists. split; [reflexivity|].
  assert (F : Forall node_block_cut (rg_blocks st)).
  { refine (ofold_inv _ _ _ (fun st => Forall node_block_cut (rg_blocks st)) _ _ _ _ _ ES); [|constructor].
    intros b st1 st2 Hb H1 E1. refine (ofold_inv _ _ _ (fun st => Forall node_block_cut (rg_blocks st)) _ _ _ _ H1 E1).
    intros i st3 st4 _ H3 E3. rewrite Forall_forall in HB. exact (regroup_node_cut _ _ _ _ _ _ _ _ (HB b Hb) H3 E3). }
  apply Forall_map. apply Forall_rev. eapply Forall_impl; [|exact F]. intros b [C1 C2 C3 C4 C5 C6].
  split; [split; assumption|reflexivity].
Qed.

(** ** Elements *)

Record element_block_cut (b : ElementBlock) : Prop := {
  ec_dim : int_ok (eb_dim b);
  ec_tag : int_ok (eb_tag b);
  ec_num : size_ok (eb_num b);
  ec_data : exists n, gmsh_nodes (eb_type b) = Some n /\ zlen (eb_data b) mod 2 ^ 64 = (eb_num b * (n + 1)) mod 2 ^ 64;
  ec_vals : Forall size_ok (eb_data b) }.

Lemma loaded_cut : forall b, element_block_loaded b -> element_block_cut b.
Proof.
  intros b [L1 L2 L3 (n & L4 & L5) L6]. split; try assumption. exists n. split; [exact L4|]. rewrite L5. apply Z.mod_mod. discriminate.
Qed.

Lemma type_size : forall t n, gmsh_nodes t = Some n -> to_size t = t /\ t <> 0.
Proof. intros t n H. destruct (gmsh_nodes_spec _ _ H) as (_ & _ & R). split; [apply to_size_id; unfold two64; lia|lia]. Qed.

Definition eg_inv (st : eregroup) : Prop := Forall element_block_cut (eg_blocks st) /\
  match eg_blocks st with [] => eg_type st = 0 | cur :: _ => eg_type st = eb_type cur end.

Lemma regroup_element_cut : forall b st st', element_block_loaded b -> eg_inv st -> regroup_element b st = Ok st' -> eg_inv st'.
Proof.
  intros b st st' HB [HF HT] E. apply loaded_cut in HB. destruct HB as [B1 B2 B3 (n & B4 & B5) B6]. destruct (type_size _ _ B4) as [TB TB0].
  unfold regroup_element in E. cbv zeta in E.
  set (st1 := if negb (to_size (eb_dim b) =? eg_dim st) || negb (to_size (eb_tag b) =? eg_tag st) || negb (to_size (eb_type b) =? eg_type st) then _ else st) in E.
  assert (H1 : eg_inv st1 /\ eg_type st1 = eb_type b).
  { unfold st1. rewrite TB. destruct (negb (to_size (eb_dim b) =? eg_dim st) || negb (to_size (eb_tag b) =? eg_tag st)) eqn:Q; cbn [orb].
    - split; [|reflexivity]. split; [|reflexivity]. cbn [eg_blocks]. constructor; [|exact HF].
      split; cbn; try assumption; [apply size_0| |constructor]. exists n. split; [exact B4|reflexivity].
    - destruct (eb_type b =? eg_type st) eqn:T; cbn [negb].
      + split; [split; assumption|]. symmetry. apply Z.eqb_eq. exact T.
      + split; [|reflexivity]. split; [|reflexivity]. cbn [eg_blocks]. constructor; [|exact HF].
        split; cbn; try assumption; [apply size_0| |constructor]. exists n. split; [exact B4|reflexivity]. }
  clearbody st1. destruct H1 as [[F1 T1] T2]. destruct (eg_blocks st1) as [|cur others] eqn:EC; [discriminate|].
  injection E as <-. inversion F1 as [|? ? HC HO]; subst. destruct HC as [C1 C2 C3 (m & C4 & C5) C6].
  split; cbn [eg_blocks eg_type eb_type]; [|exact T1]. constructor; [|exact HO].
  split; cbn [eb_dim eb_tag eb_type eb_num eb_data]; [exact C1|exact C2|apply to_size_range| |apply Forall_app; auto].
  exists m. split; [exact C4|]. assert (ET : eb_type cur = eb_type b) by (rewrite <- T1; exact T2).
  rewrite ET, B4 in C4. injection C4 as <-.
  rewrite zlen_app, Z.add_mod, C5, B5, <- Z.add_mod by discriminate. unfold to_size. change (2 ^ 64) with two64.
  rewrite Z.mul_mod_idemp_l by discriminate. f_equal. lia.
Qed.

Lemma regroup_elements_cut : forall c raw s, Forall element_block_loaded (e_blocks (elements raw)) -> regroup_elements c raw = Ok s ->
  exists bs, s = set_elements {| e_num_blocks := zlen bs; e_num_elements := e_num_elements (elements raw); e_min := e_min (elements raw);
                                 e_max := e_max (elements raw); e_blocks := bs |} raw /\ Forall element_block_cut bs.
Proof.
  intros c raw s HB E. unfold regroup_elements in E. cbv zeta in E.
  destruct (can_hold _ _ _ _) as [[]| | | |]; cbn [obind] in E; try discriminate.
  destruct (ofold _ (e_blocks (elements raw)) _) as [st| | | |] eqn:ES; cbn [obind] in E; try discriminate.
  injection E as <-. eexists. split; [reflexivity|]. apply Forall_rev.
  refine (proj1 (ofold_inv _ _ _ eg_inv _ _ _ _ _ ES)); [|split; [constructor|reflexivity]].
  intros b st1 st2 Hb. rewrite Forall_forall in HB. exact (regroup_element_cut b st1 st2 (HB b Hb)).
Qed.

(** ** All versions *)

Theorem loaded_any : forall c c' b s, load_msh c b = Ok s -> roomy c' s -> loaded s /\ ranged s.
Proof.
  intros c c' b s HL HM. destruct (load_ends c b s HL) as (raw & HE & HP). destruct (ranged_ends c b raw HE) as [HI HR].
  unfold post_process in HP. destruct (bytes_eqb (version (mesh_format raw)) v22s) eqn:V.
  2: { injection HP as <-. split; [exact (spec_inv_loaded _ HI)|exact HR]. }
  destruct (regroup_nodes c raw) as [m| | | |] eqn:EN; try discriminate. cbn [obind] in HP.
  pose proof HI as [[N1 N2 N3 N4] [E1 E2 E3 E4] D1 D2 D3].
  destruct (regroup_nodes_cut c raw m N4 EN) as (bs & -> & FN).
  destruct (regroup_elements_cut c (set_nodes _ raw) s E4 HP) as (es & -> & FE).
  split; [|destruct HR; split; assumption].
  destruct HM as [_ M1 _ M2 _ _ _ _ _ _ _ _]. cbn [nodes elements n_blocks e_blocks set_nodes set_elements] in M1, M2.
  split; cbn; try assumption; try reflexivity.
  - rewrite Forall_forall in *. intros x Hx. destruct (FN x Hx) as [[C1 C2 C3 C4 C5 C6] C7]. destruct (M1 x Hx) as [[A1 _] _].
    change (PTRDIFF_MAX / sz_size) with 1152921504606846975 in A1. pose proof (zlen_nonneg _ (nb_tags x)).
    split; try assumption.
    + rewrite C3. unfold int_ok, INT_MIN, INT_MAX. lia.
    + symmetry. exact C7.
    + rewrite C7. unfold size_ok, two64. lia.
    + rewrite C3. change (0 =? 1) with false. cbv iota. rewrite C6, C7. rewrite Z.mod_small; [lia|]. change (2 ^ 64) with two64. unfold two64. lia.
    + rewrite C3. discriminate.
  - rewrite Forall_forall in *. intros x Hx. destruct (FE x Hx) as [C1 C2 C3 (n & C4 & C5) C6]. destruct (M2 x Hx) as [A1 _].
    change (PTRDIFF_MAX / sz_size) with 1152921504606846975 in A1. pose proof (zlen_nonneg _ (eb_data x)).
    split; try assumption. exists n. split; [exact C4|]. rewrite <- C5. symmetry. apply Z.mod_small. change (2 ^ 64) with two64. unfold two64. lia.
Qed.

Theorem upgraded : forall c c' a b s, load_msh c b = Ok s -> data_size (mesh_format s) = 8 ->
  sober s -> roomy c' s -> (a = true -> textual c' s) -> consistent41 c' a (to41 a s).
Proof.
  intros c c' a b s HL V HS HM HT. destruct (loaded_any c c' b s HL HM) as [[L1 L2 L3 L4 L5 L6 L7 L8 L9] [[R0 R0'] R1 R2 R3 R4 R5 R6 R7 R8 R9]].
  assert (E : to41 a s = as_type a (as_version (str "4.1") s)) by reflexivity. rewrite E.
  apply loaded_consistent.
  - split; assumption.
  - split; cbn; try assumption; [auto|intros _; exact V].
  - reflexivity.
  - destruct HS; split; assumption.
  - destruct HM; split; assumption.
  - intro A. destruct (HT A). split; assumption.
Qed.
