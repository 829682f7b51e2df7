(** C53: builds and machines agree. *)

From Verif Require Import Model.Save Spec.Builds Tests.Examples Proofs.BuildsP.
From Verif Require Props.Loaded.

(** Any bytes have the same outcome, be it a mesh, an exception, undefined
    behaviour or no end, in a build without asserts and with more memory,
    except where an assert failed or memory ran out before. *)
Theorem C53_load : forall c c' b, eases c c' -> load_msh c b <> Abort -> load_msh c b <> Throw BadAlloc ->
  load_msh c' b = load_msh c b.
Proof. intros c c' b E H G. destruct (same_load c c' E b) as [X|[X|X]]; [contradiction|contradiction|exact X]. Qed.
Print Assumptions C53_load.

(** In particular a release build gives the mesh a debug build gives. *)
Theorem C53_mesh : forall c c' b s, eases c c' -> load_msh c b = Ok s -> load_msh c' b = Ok s.
Proof. intros c c' b s E H. rewrite <- H. apply C53_load; [exact E|rewrite H; discriminate|rewrite H; discriminate]. Qed.
Print Assumptions C53_mesh.

(** Two machines on which a file loads give the same mesh, whatever their
    memory and build mode. *)
Theorem C53_one_mesh : forall c c' b s s', nanospline c = nanospline c' -> load_msh c b = Ok s -> load_msh c' b = Ok s' -> s = s'.
Proof.
  intros c c' b s s' N H H'. pose (d := {| ndebug := true; nanospline := nanospline c; mem := Z.max (mem c) (mem c') |}).
  assert (E1 : eases c d) by (split; [reflexivity|split; [reflexivity|apply Z.le_max_l]]).
  assert (E2 : eases c' d) by (split; [reflexivity|split; [exact N|apply Z.le_max_r]]).
  pose proof (C53_mesh c d b s E1 H) as A. pose proof (C53_mesh c' d b s' E2 H') as B. rewrite A in B. injection B as <-. reflexivity.
Qed.
Print Assumptions C53_one_mesh.

(** Saving: the same bytes, except where an assert fails. *)
Theorem C53_save : forall c c' s, eases c c' -> snd (save_msh c s) <> Abort -> save_msh c' s = save_msh c s.
Proof. intros c c' s E H. destruct (wsame_save c c' E s) as [X|X]; [contradiction|exact X]. Qed.
Print Assumptions C53_save.

Example C53_ex : eases c_debug c_release /\ exists s, load_msh c_debug Props.Loaded.ex_any = Ok s.
Proof. split; [split; [reflexivity|split; [reflexivity|discriminate]]|]. eexists. vm_compute. reflexivity. Qed.

(** Without the exceptions it is false: a file cut off inside the coordinates. *)
Theorem C53_refuted : exists b s, load_msh c_debug b = Abort /\ load_msh c_release b = Ok s.
Proof. exists Props.Loaded.ex_cut. eexists. split; vm_compute; reflexivity. Qed.
Print Assumptions C53_refuted.
