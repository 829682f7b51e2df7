(** C63: the overloads that take streams, on streams in any state. *)

From Verif Require Import Model.Streams Spec.Consistent Spec.Consistent22 Spec.Steps Tests.Examples Proofs.BytesP Proofs.RtBase
  Proofs.Mono Proofs.Fuel Proofs.EndP.
From Verif Require Props.Loaded.

(** A good stream is read like a file with the characters that are left. *)
Theorem C63_good : forall c s, good s = true ->
  load_msh c (rest s) = obind (load_stream c s) (fun r => Ok (fst r)).
Proof. exact stream_good. Qed.
Print Assumptions C63_good.

(** A stream that has failed before its end makes load_msh hang. *)
Theorem C63_failed : forall c s, failb s = true -> eofb s = false ->
  load_stream c s = Diverge /\ forall n, exists p, steps c n (Main spec_default s) p.
Proof. intros c s F E. apply stream_stuck. split; assumption. Qed.
Print Assumptions C63_failed.

(** A stream at its end, failed or not, gives an empty mesh. *)
Theorem C63_eof : forall c s, eofb s = true -> load_stream c s = Ok (spec_default, s).
Proof. exact stream_eof. Qed.
Print Assumptions C63_eof.

(** Whatever loads is read to the end. *)
Theorem C63_end : forall c s spec s', load_stream c s = Ok (spec, s') ->
  eofb s' = true /\ (good s = true -> rest s' = []).
Proof. exact stream_end. Qed.
Print Assumptions C63_end.

(** So loading again from the same stream gives an empty mesh. *)
Theorem C63_again : forall c s spec s', load_stream c s = Ok (spec, s') -> load_stream c s' = Ok (spec_default, s').
Proof. intros c s spec s' H. apply stream_eof. eapply stream_end. exact H. Qed.
Print Assumptions C63_again.

Example C63_again_ex : exists s', load_stream c_release (opened (Props.Loaded.header_41 false ++ str "$Nodes 0 0 0 0 $EndNodes")) =
  Ok (set_nodes {| n_num_blocks := 0; n_num_nodes := 0; n_min := 0; n_max := 0; n_blocks := [] |} spec_default, s') /\
  eofb s' = true /\ failb s' = false.
Proof. eexists. split; [vm_compute; reflexivity|]. split; reflexivity. Qed.

(** Saved files load, but leave the stream failed. *)
Theorem C63_saved : forall c a s, consistent41 c a s \/ consistent22 c a s ->
  exists b spec, save_msh c s = (b, Ok tt) /\
    load_stream c (opened b) = Ok (spec, {| rest := []; eofb := true; failb := true |}).
Proof. exact stream_saved. Qed.
Print Assumptions C63_saved.

Example C63_saved_ex : consistent41 {| ndebug := true; nanospline := true; mem := 1000000 |} true (ex_spec (str "4.1") true).
Proof. apply ex_spec_41. Qed.

(** Whether save_msh throws does not depend on the stream.  What the stream
    holds stays there, followed by the file or a beginning of it; by all of the
    file if the stream is still good, by nothing if it was not good before. *)
Theorem C63_written : forall c o s o' r, save_stream c o s = (o', r) ->
  r = snd (save_msh c s) /\
  exists p q, fst (save_msh c s) = p ++ q /\ held o' = held o ++ p /\
    (ogood o' = true -> q = []) /\ (ogood o = false -> p = [] /\ ogood o' = false) /\
    (ogood o = true -> room o = None -> q = [] /\ ogood o' = true).
Proof.
  intros c o s o' r H. unfold save_stream in H. destruct (save_msh c s) as [b r']. injection H as <- <-. split; [reflexivity|].
  cbn [fst]. unfold put. destruct (ogood o) eqn:G.
  - destruct (room o) as [k|] eqn:R; cbn [held ogood].
    + exists (firstn k b), (skipn k b). split; [symmetry; apply firstn_skipn|]. split; [reflexivity|].
      split; [|split; [discriminate|intros _ X; discriminate]]. intro L. apply Nat.leb_le in L. apply skipn_all2. exact L.
    + exists b, []. split; [symmetry; apply app_nil_r|]. split; [reflexivity|]. split; [reflexivity|]. split; [discriminate|]. auto.
  - exists [], b. split; [reflexivity|]. split; [symmetry; apply app_nil_r|].
    split; [congruence|]. split; [auto|discriminate].
Qed.
Print Assumptions C63_written.

Example C63_written_ex :
  let o := {| held := str "x"; ogood := true; room := Some 12%nat |} in
  held (fst (save_stream c_release o spec_default)) = str "x$MeshFormat" ++ endl /\
  ogood (fst (save_stream c_release o spec_default)) = false /\ snd (save_stream c_release o spec_default) = Ok tt.
Proof. vm_compute. repeat split. Qed.
