(** C09, C10: saving again, and the two encodings. *)

From Verif Require Import Model.Save Spec.Consistent22 Spec.Rounding Tests.Examples Tests.ExamplesRt22 Tests.ExamplesConv
  Proofs.ShowP Proofs.RoundP Proofs.TextP Proofs.Final Proofs.AgreeP Proofs.StableP.

(** 4.1 binary, no real tags: the same bytes, always. *)
Theorem C09_binary41 : forall c s, consistent41 c false s ->
  (forall d, In d (all_data s) -> real_tags (d_header d) = []) ->
  exists b s', save_msh c s = (b, Ok tt) /\ load_msh c b = Ok s' /\ save_msh c s' = (b, Ok tt).
Proof.
  intros c s H R. apply (stable41 c false s H). unfold text_doubles. rewrite app_nil_r.
  apply Forall_forall. intros x Hx. apply in_flat_map in Hx. destruct Hx as (d & Hd & Hx).
  rewrite (R d Hd) in Hx. destruct Hx.
Qed.
Print Assumptions C09_binary41.

(** Every double written as text normal or unchanged by the rounding. *)
Theorem C09_saved_again41 : exists r : dbl -> dbl,
  (forall x, size_ok x -> finite x -> six_digits_of x (r x)) /\
  forall c a s, consistent41 c a s -> Forall (fun x => normal x \/ r x = x) (text_doubles a s) ->
    exists b s', save_msh c s = (b, Ok tt) /\ load_msh c b = Ok s' /\ save_msh c s' = (b, Ok tt).
Proof. exists ascii_round. split; [exact ascii_round_six|exact stable41]. Qed.
Print Assumptions C09_saved_again41.

Theorem C09_saved_again22 : exists r : dbl -> dbl,
  (forall x, size_ok x -> finite x -> six_digits_of x (r x)) /\
  forall c s, consistent22 c true s -> Forall (fun x => normal x \/ r x = x) (text_doubles true s) -> one_block c s ->
    exists b s', save_msh c s = (b, Ok tt) /\ load_msh c b = Ok s' /\ save_msh c s' = (b, Ok tt).
Proof. exists ascii_round. split; [exact ascii_round_six|exact stable22]. Qed.
Print Assumptions C09_saved_again22.

Lemma ex_settles : forall r v a, (forall x, size_ok x -> finite x -> six_digits_of x (r x)) ->
  Forall (fun x => normal x \/ r x = x) (text_doubles a (ex_spec v a)).
Proof.
  intros r v a H.
  assert (Z0 : r 0 = 0).
  { apply (six_digits_exact 0 (r 0) 0 0); [|vm_compute; discriminate| |lia|reflexivity].
    - vm_compute. intuition discriminate.
    - apply H; vm_compute; intuition discriminate. }
  destruct a; cbn; repeat (apply Forall_cons; [first [right; exact Z0|left; vm_compute; discriminate]|]); apply Forall_nil.
Qed.

Example C09_hyp : (forall a, consistent41 c_debug a (ex_spec (str "4.1") a)) /\
  consistent22 c_debug true (ex_spec (str "2.2") true) /\ one_block c_debug (ex_spec (str "2.2") true) /\
  forall r v a, (forall x, size_ok x -> finite x -> six_digits_of x (r x)) ->
    Forall (fun x => normal x \/ r x = x) (text_doubles a (ex_spec v a)).
Proof.
  split; [exact (ex_spec_41 false)|]. split; [exact (ex_spec_22 false true)|].
  split; [apply (rm_elements _ _ (ex_room (str "2.2") true))|exact ex_settles].
Qed.

Example C09_hyp_binary : exists s, consistent41 c_release false s /\
  (forall d, In d (all_data s) -> real_tags (d_header d) = []) /\ e_num_elements (elements s) = 1.
Proof. exists no_nodes. split; [exact no_nodes_41|]. split; [intros d []|reflexivity]. Qed.

(** After one trip a normal double is stable: it is printed and read the same. *)
Theorem C09_settled : forall x old w c r, size_ok x -> finite x -> normal x ->
  Forall (fun b => is_ws b = true) w -> is_ws c = true ->
  exists y, rd_double old (opened (w ++ show_double x ++ c :: r)) = (y, opened (c :: r)) /\
    show_double y = show_double x /\
    rd_double old (opened (w ++ show_double y ++ c :: r)) = (y, opened (c :: r)).
Proof.
  intros x old w c r H1 H2 H3 Hw Hc. exists (ascii_round x).
  pose proof (double_text x old w c r H1 H2 Hw Hc) as E. split; [exact E|].
  pose proof (show_again x H1 H2 (or_introl H3)) as S. split; [exact S|]. rewrite S. exact E.
Qed.
Print Assumptions C09_settled.

Example C09_settled_hyp : size_ok d13 /\ finite d13 /\ normal d13 /\ Forall (fun b => is_ws b = true) sp /\ is_ws x0a = true.
Proof. repeat split; try (vm_compute; intuition discriminate). repeat constructor. Qed.

(** Not so for subnormal numbers: 1e-318 is read as a number printed as
    9.99999e-319. *)
Theorem C09_subnormal_refuted : exists c s b s' b',
  consistent41 c true s /\ save_msh c s = (b, Ok tt) /\ load_msh c b = Ok s' /\
  save_msh c s' = (b', Ok tt) /\ b' <> b.
Proof.
  exists c_release, tiny. eexists. eexists. eexists. split; [exact tiny_41|].
  repeat (split; [vm_compute; reflexivity|]). vm_compute. discriminate.
Qed.
Print Assumptions C09_subnormal_refuted.

(** C10: text and binary, loaded, differ in the file type and the rounding
    only.  (Real tags are text in both and are rounded in both.) *)
Theorem C10_agree41 : exists r : dbl -> dbl,
  (forall x, size_ok x -> finite x -> six_digits_of x (r x)) /\
  forall c s, consistent41 c true (as_type true s) -> consistent41 c false (as_type false s) -> small_data s ->
    exists b1 s1 b2 s2, save_msh c (as_type true s) = (b1, Ok tt) /\ load_msh c b1 = Ok s1 /\
      save_msh c (as_type false s) = (b2, Ok tt) /\ load_msh c b2 = Ok s2 /\ s1 = as_type true (round_spec r s2).
Proof. exists ascii_round. split; [exact ascii_round_six|exact agree41]. Qed.
Print Assumptions C10_agree41.

Theorem C10_agree22 : exists r : dbl -> dbl,
  (forall x, size_ok x -> finite x -> six_digits_of x (r x)) /\
  forall c s, consistent22 c true (as_type true s) -> consistent22 c false (as_type false s) ->
    small_tags s -> small_data s ->
    exists b1 s1 b2 s2, save_msh c (as_type true s) = (b1, Ok tt) /\ load_msh c b1 = Ok s1 /\
      save_msh c (as_type false s) = (b2, Ok tt) /\ load_msh c b2 = Ok s2 /\ s1 = as_type true (round_spec r s2).
Proof. exists ascii_round. split; [exact ascii_round_six|exact agree22]. Qed.
Print Assumptions C10_agree22.

Example C10_hyp : forall v, small_data (ex_spec v true) /\ small_tags (ex_spec v true) /\
  (forall a, consistent41 c_debug a (as_type a (ex_spec (str "4.1") true))) /\
  (forall a, consistent22 c_debug a (as_type a (ex_spec (str "2.2") true))).
Proof.
  intro v. split; [apply ex_small_data|]. split; [apply ex_small|].
  split; [exact (ex_spec_41 false)|exact (ex_spec_22 false)].
Qed.
