(** validate_spec and round trips. *)

From Verif Require Import Model.Validate Model.Save Spec.Valid Spec.Consistent22 Spec.Rounding
  Proofs.ValidateP Proofs.RtBase Proofs.RtStep Proofs.Rt41B Proofs.Rt41 Proofs.PostP Proofs.ElemP Proofs.BytesP Proofs.ShowP Proofs.RoundP Proofs.Final Proofs.Final22.
Ltac Zify.zify_post_hook ::= idtac.

Lemma valid_41 : forall a r ext s, typed s -> validate_spec s = Ok tt ->
  (n_num_nodes (nodes s) = 0 -> e_num_elements (elements s) = 0) ->
  validate_spec (via41 a r ext s) = Ok tt.
Proof.
  intros a r ext s T V H. apply validate_ok in V; [|exact T]. destruct V as ([H1 H2 H3 H4] & N & E).
  apply validate_ok.
  { unfold typed in *. cbn [via41 elements]. unfold elements_via. destruct (_ =? 0); [constructor|exact T]. }
  set (s' := via41 a r ext s).
  assert (EN : nodes s' = if n_num_nodes (nodes s) =? 0 then n_default else
     {| n_num_blocks := n_num_blocks (nodes s); n_num_nodes := n_num_nodes (nodes s);
        n_min := n_min (nodes s); n_max := n_max (nodes s); n_blocks := map (node_block_via a r) (n_blocks (nodes s)) |})
    by reflexivity.
  assert (EE : elements s' = if e_num_elements (elements s) =? 0 then e_default else elements s) by reflexivity.
  clearbody s'.
  assert (HE : Forall (fun b => valid_element_block s' b /\ countable b) (e_blocks (elements s'))).
  { rewrite EE. destruct (e_num_elements (elements s) =? 0) eqn:E0; [constructor|]. apply Z.eqb_neq in E0.
    assert (N0 : n_num_nodes (nodes s) =? 0 = false) by (apply Z.eqb_neq; tauto). rewrite N0 in EN.
    eapply Forall_impl; [|exact E]. intros b [(rows & R1 & R2) C]. split; [|exact C]. exists rows. split; [exact R1|].
    unfold element_range, node_range in *. rewrite EE, EN. exact R2. }
  destruct (n_num_nodes (nodes s) =? 0) eqn:E1.
  - split; [|split; [rewrite EN; constructor|exact HE]]. split; rewrite ?EN.
    + reflexivity.
    + rewrite EE. destruct (e_num_elements _ =? 0); [reflexivity|exact H2].
    + cbn. lia.
    + rewrite EE. destruct (e_num_elements _ =? 0); [cbn; lia|exact H4].
  - split; [|split; [|exact HE]].
    + split; rewrite ?EN; cbn [n_num_blocks n_blocks n_min n_max].
      * rewrite zlen_map. exact H1.
      * rewrite EE. destruct (e_num_elements _ =? 0); [reflexivity|exact H2].
      * exact H3.
      * rewrite EE. destruct (e_num_elements _ =? 0); [cbn; lia|exact H4].
    + rewrite EN. cbn [n_blocks]. apply Forall_map. eapply Forall_impl; [|exact N].
      intros b [[V1 V2 V3] AD]. split; [|exact AD]. split; cbn [node_block_via nb_num nb_tags nb_data nb_parametric nb_dim].
      * exact V1.
      * unfold node_range in *. rewrite EN. exact V2.
      * rewrite zlen_map. exact V3.
Qed.

Lemma cut_concat : forall k num data, List.length data = (num * k)%nat -> List.concat (cut k num data) = data.
Proof.
  intros k num. induction num as [|num IH]; intros data H.
  - destruct data; [reflexivity|discriminate].
  - cbn [cut List.concat]. rewrite IH; [apply firstn_skipn|]. rewrite skipn_length. lia.
Qed.

Lemma cut_row_length : forall k num data r, List.length data = (num * k)%nat -> In r (cut k num data) -> List.length r = k.
Proof.
  intros k num. induction num as [|num IH]; intros data r H Hr; [destruct Hr|].
  cbn [cut] in Hr. destruct Hr as [<-|Hr].
  - rewrite firstn_length. lia.
  - apply (IH (skipn k data)); [rewrite skipn_length; lia|exact Hr].
Qed.

(** A block whose elements are in range. *)
Lemma valid_block_22 : forall s b, element_block_22 b -> 0 < eb_num b ->
  (forall e, In e (block_elements b) -> element_range s (el_tag e) /\ Forall (node_range s) (el_nodes e)) ->
  valid_element_block s b /\ countable b.
Proof.
  intros s b [_ _ [B1 B2] (n & Hn & Hd) _] Hp H. destruct (gmsh_nodes_spec _ _ Hn) as (_ & N1 & _).
  set (k := Z.to_nat (n + 1)). set (num := Z.to_nat (eb_num b)).
  assert (L : List.length (eb_data b) = (num * k)%nat).
  { unfold zlen in Hd. unfold num, k. apply Nat2Z.inj. rewrite Hd, Nat2Z.inj_mul, !Z2Nat.id by lia. reflexivity. }
  split.
  - exists (map (fun r => (hd 0 r, tl r)) (cut k num (eb_data b))).
    assert (RL : forall r, In r (cut k num (eb_data b)) -> hd 0 r :: tl r = r /\ zlen (tl r) = n).
    { intros r Hr. pose proof (cut_row_length _ _ _ _ L Hr) as R. destruct r as [|x r].
      - exfalso. cbn in R. unfold k in R. lia.
      - split; [reflexivity|]. cbn [tl]. unfold zlen. cbn [List.length] in R. unfold k in R. lia. }
    split.
    + rewrite <- (cut_concat _ _ _ L) at 1. rewrite flat_map_concat_map, map_map. f_equal.
      rewrite <- (map_id (cut k num (eb_data b))) at 1. apply map_ext_in. intros r Hr. cbn [fst snd]. symmetry. apply RL. exact Hr.
    + apply Forall_map. apply Forall_forall. intros r Hr. cbn [fst snd]. split.
      * rewrite (proj2 (RL r Hr)), Hd, Z.mul_comm, Z.div_mul by lia. reflexivity.
      * apply (H (element_of b r)). unfold block_elements. rewrite Hn. apply in_map. exact Hr.
  - unfold countable. rewrite Hd. nia.
Qed.

Lemma flat_map_zlen : forall A B (f : A -> list B) l x, In x l -> zlen (f x) <= zlen (flat_map f l).
Proof.
  intros A B f l x. induction l as [|y l IH]; intro H; [destruct H|]. cbn [flat_map]. rewrite zlen_app.
  pose proof (zlen_nonneg _ (f y)). pose proof (zlen_nonneg _ (flat_map f l)).
  destruct H as [->|H]; [lia|]. specialize (IH H). lia.
Qed.

Lemma valid_22 : forall c a r s s', kept22 c a r s s' -> 3 * zlen (nodes_22 a r s) < 2 ^ 64 ->
  Forall (fun e => 0 <= el_tag e <= INT_MAX) (elements_22 s) ->
  (forall e t, In e (elements_22 s) -> In t (el_nodes e) ->
     exists n1 n2, In n1 (nodes_22 a r s) /\ In n2 (nodes_22 a r s) /\ n_tag n1 <= t <= n_tag n2) ->
  validate_spec s' = Ok tt.
Proof.
  intros c a r s s' K SZ T R.
  assert (NR : forall n, In n (nodes_22 a r s) -> node_range s' (n_tag n)).
  { intros n Hn. apply (k22_min _ _ _ _ _ K); [|exact Hn]. intro X. rewrite X in Hn. destruct Hn. }
  assert (ER : forall e, In e (elements_22 s) -> element_range s' (el_tag e) /\ Forall (node_range s') (el_nodes e)).
  { intros e He. split.
    - apply (k22_element_min _ _ _ _ _ K); [|exact T|exact He]. intro X. rewrite X in He. destruct He.
    - apply Forall_forall. intros t Ht. destruct (R e t He Ht) as (n1 & n2 & H1 & H2 & B).
      apply NR in H1, H2. unfold node_range in *. lia. }
  apply validate_ok.
  { eapply Forall_impl; [|exact (k22_element_full _ _ _ _ _ K)]. cbn beta. intros b Hb. lia. }
  split; [|split].
  - split; [exact (k22_node_num _ _ _ _ _ K)|exact (k22_element_num _ _ _ _ _ K)| |].
    + destruct (nodes_22 a r s) as [|n l] eqn:E.
      * rewrite (k22_no_nodes _ _ _ _ _ K E). cbn. lia.
      * specialize (NR n (or_introl eq_refl)). unfold node_range in NR. lia.
    + destruct (elements_22 s) as [|e l] eqn:E.
      * rewrite (k22_no_elements _ _ _ _ _ K E). cbn. lia.
      * destruct (ER e (or_introl eq_refl)) as [X _]. unfold element_range in X. lia.
  - pose proof (k22_node_blocks _ _ _ _ _ K) as NB. rewrite Forall_forall in *. intros b Hb. specialize (NB b Hb).
    destruct NB as [B1 B2 B3 B4 B5 B6 B7]. split.
    + split; [exact B4| |].
      * apply Forall_forall. intros t Ht. rewrite <- (nodes_of_tags (Z.to_nat (node_width b)) (nb_tags b) (nb_data b)) in Ht.
        apply in_map_iff in Ht. destruct Ht as (n & <- & Hn). apply NR. rewrite <- (k22_nodes _ _ _ _ _ K).
        apply in_flat_map. exists b. split; [exact Hb|exact Hn].
      * rewrite B1. cbn [Z.ltb Z.compare]. rewrite B5, B4.
        symmetry. rewrite Z.mul_comm. apply Z.mod_small. pose proof (zlen_nonneg _ (nb_tags b)).
        enough (zlen (nb_tags b) <= zlen (nodes_22 a r s)) by lia.
        rewrite <- (k22_nodes _ _ _ _ _ K).
        rewrite <- (nodes_of_tags (Z.to_nat (node_width b)) (nb_tags b) (nb_data b)), zlen_map.
        apply (flat_map_zlen _ _ block_nodes). exact Hb.
    + intro X. rewrite B1 in X. lia.
  - pose proof (k22_element_blocks _ _ _ _ _ K) as EB. pose proof (k22_element_full _ _ _ _ _ K) as EF.
    rewrite Forall_forall in EB, EF. apply Forall_forall. intros b Hb.
    apply valid_block_22; [exact (EB b Hb)|exact (EF b Hb)|]. intros e He. apply ER.
    rewrite <- (k22_elements _ _ _ _ _ K). apply in_flat_map. exists b. split; assumption.
Qed.

(** The theorems. *)

Lemma valid_kept41 : forall c a s, consistent41 c a s -> typed s -> validate_spec s = Ok tt ->
  (n_num_nodes (nodes s) = 0 -> e_num_elements (elements s) = 0) ->
  exists b s', save_msh c s = (b, Ok tt) /\ load_msh c b = Ok s' /\ validate_spec s' = Ok tt.
Proof.
  intros c a s H T V N. destruct (roundtrip41 c a s H) as (b & E1 & E2). exists b. eexists.
  split; [exact E1|]. split; [exact E2|]. apply valid_41; assumption.
Qed.

Lemma valid_kept22 : forall c a s, consistent22 c a s ->
  Forall (fun e => 0 <= el_tag e < 2 ^ 31) (mesh_elements (elements s)) ->
  exists b s', save_msh c s = (b, Ok tt) /\ load_msh c b = Ok s' /\ validate_spec s' = Ok tt.
Proof.
  intros c a s H T. destruct (Rt22.roundtrip22 c a s H) as (b & s' & E1 & E2 & K). exists b, s'.
  split; [exact E1|]. split; [exact E2|]. eapply valid_22; [exact K| | |].
  - unfold nodes_22. rewrite zlen_map, <- (ok22_num_nodes _ _ _ H).
    destruct (Z.eq_dec (n_num_nodes (nodes s)) 0) as [->|N]; [lia|].
    pose proof (ns_data _ _ _ (ok22_nodes _ _ _ H N)) as [X _]. change sz_double with 8 in X. unfold PTRDIFF_MAX in X. 
    change (3 * n_num_nodes (nodes s) <= 1152921504606846975) in X. lia.
  - unfold elements_22. apply Forall_map. eapply Forall_impl; [|exact T]. cbn beta. intros e He.
    cbn [element_via22 el_tag]. rewrite tag32_small by (unfold INT_MAX; lia). unfold INT_MAX. lia.
  - apply (Rt22.refs_22 c). exact H.
Qed.
