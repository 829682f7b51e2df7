(** Saving without undefined behaviour. *)

From Verif Require Export Spec.Valid Model.Save Proofs.BytesP Proofs.ElemP Proofs.WriteP Proofs.RtStep.
Ltac Zify.zify_post_hook ::= idtac.

Lemma bytes_eqb_spec : forall a b, reflect (a = b) (bytes_eqb a b).
Proof.
  intros a b. destruct (bytes_eqb a b) eqn:E; constructor; [apply bytes_eqb_eq|apply bytes_eqb_neq]; exact E.
Qed.

(** Ends normally, or throws where [T]. *)
Definition ends (T : Prop) (w : W) : Prop := snd w = Ok tt \/ (T /\ exists e, snd w = Throw e).

Section Ends.
Context (T : Prop).

Lemma ends_out : forall b, ends T (out b).
Proof. left. reflexivity. Qed.
Lemma ends_ret : ends T wret.
Proof. left. reflexivity. Qed.

Lemma ends_seq : forall a b, ends T a -> ends T b -> ends T (a +++ b).
Proof.
  intros [x r] b Ha Hb. destruct Ha as [Ha|(HT & e & Ha)]; cbn [snd] in Ha; subst r; cbn.
  - exact Hb.
  - right. split; [exact HT|]. exists e. reflexivity.
Qed.

Lemma ends_for : forall A (l : list A) f, (forall x, In x l -> ends T (f x)) -> ends T (wfor l f).
Proof.
  intros A l f. induction l as [|x l IH]; intro H; cbn [wfor]; [apply ends_ret|].
  apply ends_seq; [apply H; left; reflexivity|]. apply IH. intros y Hy. apply H. right. exact Hy.
Qed.

Lemma ends_at : forall A (l : list A) i f, 0 <= i < zlen l -> (forall x, In x l -> ends T (f x)) ->
  ends T (wlet (at_ l i) f).
Proof. intros A l i f H Hf. destruct (at_some _ _ _ H) as (x & -> & I). cbn. apply Hf, I. Qed.

Lemma ends_array : forall v n, 0 <= n <= zlen v * 8 -> room (zlen v) -> ends T (write_array 8 v n).
Proof.
  intros v n N R. unfold write_array, room, PTRDIFF_MAX in *.
  destruct (Z.ltb_spec 9223372036854775807 n); [lia|].
  destruct (Z.ltb_spec (zlen v * Z.of_nat 8) n); [lia|]. apply ends_out.
Qed.

Lemma ends_blocks : forall A (l : list A) n f, n = zlen l -> (forall x, In x l -> ends T (f x)) ->
  ends T (wfor (iota n) (fun i => wlet (at_ l i) f)).
Proof. intros A l n f E H. rewrite iota_at_all by exact E. apply ends_for. exact H. Qed.
End Ends.

Lemma size_small : forall z, 0 <= z < 2 ^ 63 -> to_size z = z.
Proof. intros. apply to_size_id. unfold two64. lia. Qed.

(** ** Nodes *)

Definition node_room (b : NodeBlock) : Prop :=
  nb_num b = zlen (nb_tags b) /\ room (zlen (nb_tags b)) /\ room (zlen (nb_data b)) /\
  exists w, entries_per_node (nb_parametric b) (nb_dim b) = Ok w /\ 3 <= w /\ nb_num b * w <= zlen (nb_data b).

Lemma node_room_of : forall s b, valid_node_block s b ->
  (0 < nb_parametric b -> 0 <= nb_dim b <= 3) /\ room (zlen (nb_tags b)) /\ room (zlen (nb_data b)) -> node_room b.
Proof.
  intros s b [N _ D] (P & R1 & R2). split; [exact N|]. split; [exact R1|]. split; [exact R2|].
  pose proof (zlen_nonneg _ (nb_tags b)) as P1.
  unfold entries_per_node, INT_MAX. cbv zeta. unfold room in *.
  destruct (Z.ltb_spec 0 (nb_parametric b)) as [Q|Q].
  - specialize (P Q). rewrite Z.mod_small in D by nia.
    destruct (nb_parametric b =? 1).
    + destruct (Z.ltb_spec 2147483647 (3 + nb_dim b)); [lia|].
      exists (3 + nb_dim b). split; [f_equal; apply size_small; lia|]. split; [lia|]. rewrite N, D. lia.
    + exists 3. split; [reflexivity|]. split; [lia|]. rewrite N, D. nia.
  - destruct (Z.eqb_spec (nb_parametric b) 1); [lia|].
    rewrite Z.mod_small in D by lia. exists 3. split; [reflexivity|]. split; [lia|]. rewrite N, D. lia.
Qed.

Lemma node_41_ascii : forall T b, node_room b -> ends T (v41_save_node_block_ascii b).
Proof.
  intros T b (N & R1 & R2 & w & E & W & D). unfold v41_save_node_block_ascii.
  apply ends_seq; [apply ends_out|]. apply ends_seq.
  { apply ends_blocks; [exact N|]. intros; apply ends_out. }
  rewrite E. cbn [wlet]. apply ends_for. intros j Hj. apply in_iota in Hj.
  apply ends_for. intros k Hk. apply in_iota in Hk. unfold room in *.
  apply ends_at; [|intros; apply ends_out].
  assert (j * w + k < nb_num b * w) by nia. assert (0 <= j * w) by nia. rewrite size_small; lia.
Qed.

Lemma node_41_binary : forall T b, node_room b -> ends T (v41_save_node_block_binary b).
Proof.
  intros T b (N & R1 & R2 & w & E & W & D). unfold v41_save_node_block_binary.
  pose proof (zlen_nonneg _ (nb_tags b)). unfold room in *.
  apply ends_seq; [apply ends_out|]. apply ends_seq.
  { apply ends_array; [|exact R1]. rewrite size_small; lia. }
  rewrite E. cbn [wlet]. apply ends_array; [|exact R2]. 
  replace (8 * nb_num b * w) with (8 * (nb_num b * w)) by lia.
  assert (0 <= nb_num b * w) by nia. rewrite size_small; unfold dbl in *; lia.
Qed.

Lemma node_22_ascii : forall T b, node_room b -> ends T (v22_save_node_block_ascii b).
Proof.
  intros T b (N & R1 & R2 & w & E & W & D). unfold v22_save_node_block_ascii.
  rewrite E. cbn [wlet]. apply ends_for. intros j Hj. apply in_iota in Hj. unfold room in *.
  assert (A : forall k, 0 <= k <= 2 -> 0 <= to_size (j * w + k) < zlen (nb_data b)).
  { intros k Hk. assert (j * w + k < nb_num b * w) by nia. assert (0 <= j * w) by nia. rewrite size_small; lia. }
  apply ends_at; [lia|]. intros t _.
  apply ends_seq; [apply ends_out|]. apply ends_at; [specialize (A 0); rewrite Z.add_0_r in A; lia|]. intros x _.
  apply ends_seq; [apply ends_out|]. apply ends_at; [apply A; lia|]. intros y _.
  apply ends_seq; [apply ends_out|]. apply ends_at; [apply A; lia|]. intros; apply ends_out.
Qed.

Lemma node_22_binary : forall T b, node_room b -> ends T (v22_save_node_block_binary b).
Proof.
  intros T b (N & R1 & R2 & w & E & W & D). unfold v22_save_node_block_binary.
  rewrite E. cbn [wlet]. apply ends_for. intros j Hj. apply in_iota in Hj. unfold room in *.
  assert (A : 0 <= to_size (j * w) /\ to_size (j * w) + 2 < zlen (nb_data b)).
  { assert (j * w + 2 < nb_num b * w) by nia. assert (0 <= j * w) by nia. rewrite size_small; lia. }
  apply ends_at; [lia|]. intros t _.
  apply ends_seq; [apply ends_out|]. apply ends_at; [lia|]. intros x _.
  apply ends_at; [lia|]. intros y _. apply ends_at; [lia|]. intros; apply ends_out.
Qed.

(** ** Elements *)

Section Elements.
Context (T : Prop).

Definition element_room (b : ElementBlock) : Prop :=
  (gmsh_nodes (eb_type b) = None -> T) /\ 0 <= eb_num b /\ room (zlen (eb_data b)) /\
  forall n, gmsh_nodes (eb_type b) = Some n -> eb_num b * (n + 1) <= zlen (eb_data b).

Lemma ends_npe : forall b f, element_room b ->
  (forall n, 1 <= n -> eb_num b * (n + 1) <= zlen (eb_data b) -> ends T (f n)) ->
  ends T (wlet (nodes_per_element (eb_type b)) f).
Proof.
  intros b f (H1 & _ & _ & H2) Hf. destruct (tables (eb_type b)) as [-> _].
  destruct (gmsh_nodes (eb_type b)) as [n|] eqn:E; cbn [wlet].
  - apply Hf; [|apply H2; reflexivity]. apply (gmsh_nodes_spec _ _ E).
  - right. split; [apply H1; reflexivity|]. eexists. reflexivity.
Qed.

Lemma element_41_ascii : forall b, element_room b -> ends T (v41_save_element_block_ascii b).
Proof.
  intros b H. unfold v41_save_element_block_ascii. apply ends_seq; [apply ends_out|].
  apply ends_npe; [exact H|]. intros n N L. destruct H as (_ & P & R & _). unfold room in R.
  apply ends_for. intros j Hj. apply in_iota in Hj. apply ends_for. intros k Hk. apply in_iota in Hk.
  apply ends_at; [|intros; apply ends_out].
  assert (j * (n + 1) + k < eb_num b * (n + 1)) by nia. assert (0 <= j * (n + 1)) by nia. rewrite size_small; lia.
Qed.

Lemma element_41_binary : forall b, ends T (v41_save_element_block_binary b).
Proof. intro b. apply ends_seq; apply ends_out. Qed.

Lemma element_22_ascii : forall b, element_room b -> ends T (v22_save_element_block_ascii b).
Proof.
  intros b H. unfold v22_save_element_block_ascii.
  apply ends_npe; [exact H|]. intros n N L. destruct H as (_ & P & R & _). unfold room in R.
  apply ends_for. intros j Hj. apply in_iota in Hj.
  assert (A : forall k, 0 <= k <= n -> 0 <= to_size (j * (n + 1) + k) < zlen (eb_data b)).
  { intros k Hk. assert (j * (n + 1) + k < eb_num b * (n + 1)) by nia. assert (0 <= j * (n + 1)) by nia. rewrite size_small; lia. }
  apply ends_at; [specialize (A 0); rewrite Z.add_0_r in A; lia|]. intros x _.
  apply ends_seq; [apply ends_out|]. apply ends_for. intros k Hk. apply in_iota in Hk.
  apply ends_at; [rewrite <- Z.add_assoc; apply A; lia|]. intros; apply ends_out.
Qed.

Lemma element_22_binary : forall b, element_room b -> ends T (v22_save_element_block_binary b).
Proof.
  intros b H. unfold v22_save_element_block_binary. apply ends_seq; [apply ends_out|].
  apply ends_npe; [exact H|]. intros n N L. destruct H as (_ & P & R & _). unfold room in R.
  apply ends_for. intros j Hj. apply in_iota in Hj.
  assert (A : forall k, 0 <= k <= n -> 0 <= to_size (j * (n + 1) + k) < zlen (eb_data b)).
  { intros k Hk. assert (j * (n + 1) + k < eb_num b * (n + 1)) by nia. assert (0 <= j * (n + 1)) by nia. rewrite size_small; lia. }
  apply ends_at; [specialize (A 0); rewrite Z.add_0_r in A; lia|]. intros x _.
  apply ends_seq; [apply ends_out|]. apply ends_for. intros k Hk. apply in_iota in Hk.
  apply ends_at; [rewrite <- Z.add_assoc; apply A; lia|]. intros; apply ends_out.
Qed.
End Elements.

(** ** Curves and patches *)

Lemma ends_assert : forall T c b, b = true -> ends T (wassert c b).
Proof. intros T c b ->. unfold wassert. destruct (ndebug c); apply ends_ret. Qed.

Lemma cp_dim_range : forall w, 3 <= cp_dim w <= 4.
Proof. intro w. unfold cp_dim. destruct (0 <? w); lia. Qed.

Lemma curve_ends : forall T c a k, 0 <= cv_ncp k /\ 0 <= cv_nknots k /\
      zlen (cv_data k) = cv_ncp k * cp_dim (cv_weights k) + cv_nknots k /\ room (zlen (cv_data k)) ->
  ends T (save_curve c a k).
Proof.
  intros T c a k (A & B & L & R). unfold save_curve. cbv zeta. fold (cp_dim (cv_weights k)).
  apply ends_seq; [apply ends_out|]. unfold curve_entries. fold (cp_dim (cv_weights k)).
  pose proof (cp_dim_range (cv_weights k)) as W. set (w := cp_dim (cv_weights k)) in *.
  assert (Q : 0 <= cv_ncp k * w) by nia.
  assert (Q2 : zlen (cv_data k) * 8 < 2 ^ 63) by exact R.
  assert (S : to_size (to_size (cv_ncp k * w) + cv_nknots k) = zlen (cv_data k)).
  { rewrite (size_small (cv_ncp k * w)) by lia. rewrite size_small by lia. lia. }
  rewrite S. apply ends_seq; [apply ends_assert, Z.eqb_refl|].
  destruct a.
  - apply ends_seq.
    + apply ends_for. intros i Hi. apply in_iota in Hi. apply ends_for. intros j Hj. apply in_iota in Hj.
      apply ends_at; [|intros; apply ends_out].
      assert (i * w + j < cv_ncp k * w) by nia. assert (0 <= i * w) by nia. rewrite size_small; lia.
    + apply ends_for. intros i Hi. apply in_iota in Hi.
      apply ends_at; [|intros; apply ends_out]. rewrite size_small; lia.
  - apply ends_array; [|exact R]. rewrite size_small; unfold dbl in *; lia.
Qed.

Lemma patch_ends : forall T c a k, 0 <= pt_ncp k /\ 0 <= pt_nu k /\ 0 <= pt_nv k /\
      zlen (pt_data k) = pt_ncp k * cp_dim (pt_weights k) + pt_nu k + pt_nv k /\ room (zlen (pt_data k)) ->
  ends T (save_patch c a k).
Proof.
  intros T c a k (A & B & B2 & L & R). unfold save_patch. cbv zeta. fold (cp_dim (pt_weights k)).
  apply ends_seq; [apply ends_out|]. unfold patch_entries. fold (cp_dim (pt_weights k)).
  pose proof (cp_dim_range (pt_weights k)) as W. set (w := cp_dim (pt_weights k)) in *.
  assert (Q : 0 <= pt_ncp k * w) by nia.
  assert (Q2 : zlen (pt_data k) * 8 < 2 ^ 63) by exact R.
  assert (S : to_size (to_size (to_size (pt_ncp k * w) + pt_nu k) + pt_nv k) = zlen (pt_data k)).
  { rewrite (size_small (pt_ncp k * w)) by lia. rewrite (size_small (pt_ncp k * w + pt_nu k)) by lia.
    rewrite size_small by lia. lia. }
  rewrite S. apply ends_seq; [apply ends_assert, Z.eqb_refl|].
  destruct a.
  - apply ends_seq; [|apply ends_seq].
    + apply ends_for. intros i Hi. apply in_iota in Hi. apply ends_for. intros j Hj. apply in_iota in Hj.
      apply ends_at; [|intros; apply ends_out].
      assert (i * w + j < pt_ncp k * w) by nia. assert (0 <= i * w) by nia. rewrite size_small; lia.
    + apply ends_for. intros i Hi. apply in_iota in Hi.
      apply ends_at; [|intros; apply ends_out]. rewrite size_small; lia.
    + apply ends_for. intros i Hi. apply in_iota in Hi.
      apply ends_at; [|intros; apply ends_out]. rewrite size_small; lia.
  - apply ends_array; [|exact R]. rewrite size_small; unfold dbl in *; lia.
Qed.

(** ** The whole file *)

Ltac ends_tac := repeat first
  [ apply ends_out | apply ends_ret | apply ends_seq | (apply ends_for; intros ? ?) ].

Lemma groups_ends : forall T s, ends T (save_physical_groups s).
Proof. intros. unfold save_physical_groups. ends_tac. Qed.

Lemma format_ends : forall T s, ends T (save_mesh_format s).
Proof. intros. unfold save_mesh_format. cbv zeta. destruct (_ =? 1); ends_tac. Qed.

Definition version_ok (s : MshSpec) : Prop :=
  version (mesh_format s) = str "4.1" \/ version (mesh_format s) = str "2.2".

Lemma version_cases : forall (T : Prop) s (a b : W) e, (~ version_ok s -> T) ->
  (version (mesh_format s) = str "4.1" -> ends T a) -> (version (mesh_format s) = str "2.2" -> ends T b) ->
  ends T (if bytes_eqb (version (mesh_format s)) v41s then a
          else if bytes_eqb (version (mesh_format s)) v22s then b else ([], Throw e)).
Proof.
  intros T s a b e HT Ha Hb. destruct (bytes_eqb_spec (version (mesh_format s)) v41s) as [E|E]; [auto|].
  destruct (bytes_eqb_spec (version (mesh_format s)) v22s) as [E2|E2]; [auto|].
  right. split; [|eexists; reflexivity]. apply HT. intros [?|?]; contradiction.
Qed.

Lemma entities_ends : forall (T : Prop) s, (~ version_ok s -> T) -> ends T (save_entities s).
Proof.
  intros T s HT. unfold save_entities. cbv zeta.
  destruct (bytes_eqb_spec (version (mesh_format s)) v22s) as [E|E]; [apply ends_ret|].
  apply ends_seq; [apply ends_out|]. apply ends_seq; [|apply ends_out].
  destruct (bytes_eqb_spec (version (mesh_format s)) v41s) as [E2|E2].
  - destruct (_ =? 0); unfold v41_save_entities_ascii, v41_save_entities_binary;
      ends_tac; unfold save_point_ascii, save_entity_ascii, save_point_binary, save_entity_binary,
      out_ints, out_ints_raw; ends_tac.
  - right. split; [|eexists; reflexivity]. apply HT. intros [?|?]; contradiction.
Qed.

Lemma nodes_ends : forall (T : Prop) s, (~ version_ok s -> T) ->
  n_num_blocks (nodes s) = zlen (n_blocks (nodes s)) ->
  Forall node_room (n_blocks (nodes s)) -> ends T (save_nodes s).
Proof.
  intros T s HT N B. rewrite Forall_forall in B. unfold save_nodes. cbv zeta.
  apply ends_seq; [apply ends_out|]. apply ends_seq; [|apply ends_out].
  apply version_cases; [exact HT|intros _|intros _]; destruct (_ =? 0);
    unfold v41_save_nodes_ascii, v41_save_nodes_binary, v22_save_nodes_ascii, v22_save_nodes_binary;
    (apply ends_seq; [apply ends_out|apply ends_blocks; [exact N|]]); intros b Hb; apply B in Hb.
  - apply node_41_ascii, Hb.
  - apply node_41_binary, Hb.
  - apply node_22_ascii, Hb.
  - apply node_22_binary, Hb.
Qed.

Lemma elements_ends : forall (T : Prop) s, (~ version_ok s -> T) ->
  e_num_blocks (elements s) = zlen (e_blocks (elements s)) ->
  Forall (element_room T) (e_blocks (elements s)) -> ends T (save_elements s).
Proof.
  intros T s HT N B. rewrite Forall_forall in B. unfold save_elements. cbv zeta.
  apply ends_seq; [apply ends_out|]. apply ends_seq; [|apply ends_out].
  apply version_cases; [exact HT|intros _|intros _]; destruct (_ =? 0);
    unfold v41_save_elements_ascii, v41_save_elements_binary, v22_save_elements_ascii, v22_save_elements_binary;
    (apply ends_seq; [apply ends_out|apply ends_blocks; [exact N|]]); intros b Hb; apply B in Hb.
  - apply element_41_ascii, Hb.
  - apply element_41_binary.
  - apply element_22_ascii, Hb.
  - apply element_22_binary, Hb.
Qed.

Lemma data_ends : forall (T : Prop) name pn s ds, (~ version_ok s -> T) ->
  ends T (save_data_sections name pn s ds).
Proof.
  intros T name pn s ds HT. unfold save_data_sections. apply ends_for. intros d _.
  apply ends_seq; [apply ends_out|]. apply ends_seq; [|apply ends_out].
  unfold save_data. apply ends_seq.
  - unfold save_data_header. ends_tac.
  - destruct (0 <? _).
    + apply version_cases; [exact HT|intros _|intros _]; apply ends_for; intros; apply ends_out.
    + apply ends_for; intros; apply ends_out.
Qed.

Lemma splines_ends : forall (T : Prop) c s, unchecked c s -> nanospline c = true ->
  ends T (save_nanospline_format s +++
     (if 0 <? zlen (curves s) then save_curves c s else wret) +++
     (if 0 <? zlen (patches s) then save_patches c s else wret)).
Proof.
  intros T c s U Hn. apply ends_seq; [unfold save_nanospline_format; ends_tac|]. apply ends_seq.
  - destruct (0 <? zlen (curves s)); [|apply ends_ret]. unfold save_curves.
    apply ends_seq; [apply ends_out|]. apply ends_seq; [apply ends_out|]. apply ends_seq; [|apply ends_out].
    apply ends_for. intros k Hk. apply curve_ends. revert k Hk. apply Forall_forall, (un_curves _ _ U Hn).
  - destruct (0 <? zlen (patches s)); [|apply ends_ret]. unfold save_patches.
    apply ends_seq; [apply ends_out|]. apply ends_seq; [apply ends_out|]. apply ends_seq; [|apply ends_out].
    apply ends_for. intros k Hk. apply patch_ends. revert k Hk. apply Forall_forall, (un_patches _ _ U Hn).
Qed.

Lemma supported_dec : forall s, supported s \/ ~ supported s.
Proof.
  intro s.
  assert (V : version_ok s \/ ~ version_ok s).
  { unfold version_ok. destruct (bytes_eqb_spec (version (mesh_format s)) (str "4.1")); [auto|].
    destruct (bytes_eqb_spec (version (mesh_format s)) (str "2.2")); [auto|]. right. intros [?|?]; contradiction. }
  destruct V as [V|V]; [|right; intros [? _]; contradiction].
  assert (D : forall b, {gmsh_nodes (eb_type b) <> None} + {~ (gmsh_nodes (eb_type b) <> None)})
    by (intro b; destruct (gmsh_nodes (eb_type b)); [left; discriminate|right; intro H; apply H; reflexivity]).
  destruct (Forall_dec _ D (e_blocks (elements s))) as [F|F].
  - left. split; assumption.
  - right. intros [_ ?]. contradiction.
Qed.

Lemma save_ends : forall c s,
  (0 < n_num_nodes (nodes s) -> n_num_blocks (nodes s) = zlen (n_blocks (nodes s)) /\
     Forall (valid_node_block s) (n_blocks (nodes s))) ->
  (0 < e_num_elements (elements s) -> e_num_blocks (elements s) = zlen (e_blocks (elements s)) /\
     Forall (fun b => 0 <= eb_num b) (e_blocks (elements s))) ->
  unchecked c s ->
  ends (~ supported s) (save_msh c s).
Proof.
  intros c s Hn He U. unfold save_msh.
  assert (HT : ~ version_ok s -> ~ supported s) by (intros H [? _]; contradiction).
  apply ends_seq; [apply format_ends|].
  apply ends_seq; [destruct (0 <? zlen (physical_groups s)); [apply groups_ends|apply ends_ret]|].
  apply ends_seq; [destruct (negb _); [apply entities_ends; exact HT|apply ends_ret]|].
  apply ends_seq.
  { destruct (Z.ltb_spec 0 (n_num_nodes (nodes s))) as [P|P]; [|apply ends_ret].
    destruct (Hn P) as [N F]. apply nodes_ends; [exact HT|exact N|].
    pose proof (un_nodes _ _ U) as V. rewrite Forall_forall in *. intros b Hb.
    eapply node_room_of; [apply F, Hb|apply V, Hb]. }
  apply ends_seq.
  { destruct (Z.ltb_spec 0 (e_num_elements (elements s))) as [P|P]; [|apply ends_ret].
    destruct (He P) as [N F]. apply elements_ends; [exact HT|exact N|].
    pose proof (un_elements _ _ U) as V. rewrite Forall_forall in *. intros b Hb.
    destruct (V b Hb) as [R L]. split; [|auto]. intros E [_ S]. rewrite Forall_forall in S. exact (S b Hb E). }
  apply ends_seq; [destruct (0 <? zlen (node_data s)); [apply data_ends; exact HT|apply ends_ret]|].
  apply ends_seq; [destruct (0 <? zlen (element_data s)); [apply data_ends; exact HT|apply ends_ret]|].
  apply ends_seq; [destruct (0 <? zlen (element_node_data s)); [apply data_ends; exact HT|apply ends_ret]|].
  destruct (nanospline c) eqn:E; [|apply ends_ret]. apply splines_ends; assumption.
Qed.
