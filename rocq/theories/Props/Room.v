(** C82: whatever loads as version 4.1 can be saved and loaded again in the same memory. *)

From Verif Require Import Model.LoadMsh Model.Save Spec.Resave Spec.Rounding Tests.Examples
  Proofs.RtStep Proofs.ShowP Proofs.RoundP Proofs.RewriteP Proofs.ResaveP Proofs.DistinctP Proofs.Trace Proofs.RoomP
  Props.RoundTrip41 Props.Resave.

(** Each vector in the spec fits in the memory in which the file was loaded. *)
Theorem C82_room : forall c b s, 0 <= mem c ->
  load_msh c b = Ok s -> sections_41 c b -> version (mesh_format s) = str "4.1" -> roomy c s.
Proof. intros c b s M. exact (loaded_roomy c M b s). Qed.
Print Assumptions C82_room.

(** So saving and loading again needs no more memory than loading did. *)
Theorem C82_binary : exists r, (forall x, size_ok x -> finite x -> six_digits_of x (r x)) /\ forall c c' b s, 0 <= mem c <= mem c' ->
  load_msh c b = Ok s -> sections_41 c b -> version (mesh_format s) = str "4.1" -> sober s ->
  exists b', save_msh c' (as_type false s) = (b', Ok tt) /\
    load_msh c' b' = Ok (via41 false r (nanospline c') (as_type false s)).
Proof.
  destruct C80_binary as (r & R & H). exists r. split; [exact R|]. intros c c' b s [M0 M] L V4 V S.
  apply (H c c' b s L V S). exact (roomy_more c c' s M (C82_room c b s M0 L V4 V)).
Qed.
Print Assumptions C82_binary.

Theorem C82_lossless : forall c c' b s, 0 <= mem c <= mem c' ->
  load_msh c b = Ok s -> sections_41 c b -> version (mesh_format s) = str "4.1" -> sober s -> lossless c' s ->
  exists b', save_msh c' (as_type false s) = (b', Ok tt) /\ load_msh c' b' = Ok (as_type false s).
Proof.
  intros c c' b s [M0 M] L V4 V S LL.
  exact (C80_lossless c c' b s L V S (roomy_more c c' s M (C82_room c b s M0 L V4 V)) LL).
Qed.
Print Assumptions C82_lossless.

Theorem C82_text : exists r, (forall x, size_ok x -> finite x -> six_digits_of x (r x)) /\ forall c c' b s, 0 <= mem c <= mem c' ->
  load_msh c b = Ok s -> sections_41 c b -> version (mesh_format s) = str "4.1" -> sober s -> textual c' s ->
  exists b', save_msh c' (as_type true s) = (b', Ok tt) /\
    load_msh c' b' = Ok (via41 true r (nanospline c') (as_type true s)).
Proof.
  destruct C80_text as (r & R & H). exists r. split; [exact R|]. intros c c' b s [M0 M] L V4 V S T.
  apply (H c c' b s L V S); [|exact T]. exact (roomy_more c c' s M (C82_room c b s M0 L V4 V)).
Qed.
Print Assumptions C82_text.

(** ** Cases *)

(** 72 bytes, the size of one node block, are just enough for loading the file. *)
Definition c_tight (m : Z) : cfg := {| ndebug := true; nanospline := true; mem := m |}.

Example C82_hyp : 0 <= mem (c_tight 72) <= mem (c_tight 72) /\ load_msh (c_tight 72) ex_junk = Ok ex_junk_spec /\ sections_41 (c_tight 72) ex_junk /\
  version (mesh_format ex_junk_spec) = str "4.1" /\ sober ex_junk_spec /\ textual (c_tight 72) ex_junk_spec /\ lossless (c_tight 72) ex_junk_spec.
Proof.
  destruct C80_hyp as (_ & V & S & _ & T & L).
  split; [cbn; lia|]. split; [vm_compute; reflexivity|]. split; [|split; [exact V|split; [exact S|split]]].
  - assert (G : exists r, trace is_41 (c_tight 72) 60 spec_default (opened ex_junk) = Some r) by (eexists; vm_compute; reflexivity).
    destruct G as (r & G). exact (trace_41 _ _ _ _ G).
  - destruct T as [T0]. split; try assumption. eapply Forall_impl; [|exact T0]. cbv beta. intros b [B _]. split; [exact B|discriminate].
  - destruct L. split; assumption.
Qed.

Example C82_less : load_msh (c_tight 71) ex_junk = Throw BadAlloc.
Proof. vm_compute. reflexivity. Qed.
