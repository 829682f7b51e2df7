(** C85: converting a file twice is converting it once. *)

From Verif Require Import Model.LoadMsh Model.Save Spec.Order Spec.Rounding Spec.Consistent22 Tests.Examples
  Proofs.RtStep Proofs.ShowP Proofs.RoundP Proofs.RewriteP Proofs.ResaveP Proofs.Resave22P Proofs.RoomP Proofs.DistinctP
  Props.RoundTrip41 Props.Resave Props.Resave22 Props.Room Props.Order Props.Stable.

(** A file of which no header says 2.2, loaded and saved as binary: loading and saving the result gives the same bytes. *)
Theorem C85_binary : forall c c' b s, 0 <= mem c <= mem c' -> ~ says_version (str "2.2") b ->
  load_msh c b = Ok s -> sober s -> (forall d, In d (all_data s) -> real_tags (d_header d) = []) ->
  exists b' s', save_msh c' (as_type false s) = (b', Ok tt) /\ load_msh c' b' = Ok s' /\ save_msh c' s' = (b', Ok tt).
Proof.
  intros c c' b s [M0 M] N L S R. destruct (C83_plain c b N) as [V4 V]. specialize (V s L).
  apply C09_binary41; [|exact R]. apply (resaved c c' false b s L V S); [|discriminate].
  exact (roomy_more c c' s M (C82_room c b s M0 L V4 V)).
Qed.
Print Assumptions C85_binary.

(** As binary or text, if the doubles that are written in digits are zero, normal or otherwise not changed by that. *)
Theorem C85_any : exists r, (forall x, size_ok x -> finite x -> six_digits_of x (r x)) /\ forall c c' b s a,
  0 <= mem c <= mem c' -> ~ says_version (str "2.2") b ->
  load_msh c b = Ok s -> sober s -> (a = true -> textual c' s) -> Forall (fun x => normal x \/ r x = x) (text_doubles a s) ->
  exists b' s', save_msh c' (as_type a s) = (b', Ok tt) /\ load_msh c' b' = Ok s' /\ save_msh c' s' = (b', Ok tt).
Proof.
  destruct C09_saved_again41 as (r & R & H). exists r. split; [exact R|]. intros c c' b s a [M0 M] N L S T D.
  destruct (C83_plain c b N) as [V4 V]. specialize (V s L).
  apply (H c' a); [|exact D]. apply (resaved c c' a b s L V S); [|exact T].
  exact (roomy_more c c' s M (C82_room c b s M0 L V4 V)).
Qed.
Print Assumptions C85_any.

(** Files of either version, converted to 4.1, if what was loaded fits in memory. *)
Theorem C85_upgrade : exists r, (forall x, size_ok x -> finite x -> six_digits_of x (r x)) /\ forall c c' b s a,
  load_msh c b = Ok s -> data_size (mesh_format s) = 8 -> sober s -> roomy c' s -> (a = true -> textual c' s) ->
  Forall (fun x => normal x \/ r x = x) (text_doubles a s) ->
  exists b' s', save_msh c' (to41 a s) = (b', Ok tt) /\ load_msh c' b' = Ok s' /\ save_msh c' s' = (b', Ok tt).
Proof.
  destruct C09_saved_again41 as (r & R & H). exists r. split; [exact R|]. intros c c' b s a L V S M T D.
  apply (H c' a); [|exact D]. exact (upgraded c c' a b s L V S M T).
Qed.
Print Assumptions C85_upgrade.

(** ** Cases *)

Lemma round_0 : forall r, (forall x, size_ok x -> finite x -> six_digits_of x (r x)) -> r 0 = 0.
Proof.
  intros r H. apply (six_digits_exact 0 (r 0) 0 0); [|vm_compute; discriminate| |lia|reflexivity].
  - vm_compute. intuition discriminate.
  - apply H; vm_compute; intuition discriminate.
Qed.

Example C85_hyp : 0 <= mem (c_tight 72) <= mem (c_tight 72) /\ ~ says_version (str "2.2") ex_plain /\ load_msh (c_tight 72) ex_plain = Ok ex_junk_spec /\
  sober ex_junk_spec /\ textual (c_tight 72) ex_junk_spec /\ (forall d, In d (all_data ex_junk_spec) -> real_tags (d_header d) = []) /\
  forall r a, (forall x, size_ok x -> finite x -> six_digits_of x (r x)) -> Forall (fun x => normal x \/ r x = x) (text_doubles a ex_junk_spec).
Proof.
  destruct C83_hyp as (M & N & L & S & _). destruct C82_hyp as (_ & _ & _ & _ & _ & T & _).
  repeat (split; [assumption|]). split; [intros d []|]. intros r a H. apply round_0 in H.
  destruct a; cbn; repeat (apply Forall_cons; [right; exact H|]); apply Forall_nil.
Qed.

Example C85_hyp_upgrade : load_msh c_release ex_junk22 = Ok ex_junk22_spec /\ data_size (mesh_format ex_junk22_spec) = 8 /\
  sober ex_junk22_spec /\ roomy c_debug ex_junk22_spec /\ textual c_debug ex_junk22_spec /\
  forall r a, (forall x, size_ok x -> finite x -> six_digits_of x (r x)) -> Forall (fun x => normal x \/ r x = x) (text_doubles a ex_junk22_spec).
Proof.
  destruct C81_hyp as (A & B & C & D & E & _). repeat (split; [assumption|]). intros r a H. apply round_0 in H.
  destruct a; cbn; repeat (apply Forall_cons; [right; exact H|]); apply Forall_nil.
Qed.
