(** C15: when load_msh loops forever. *)

From Verif Require Import Model.Save Spec.Steps Tests.Examples Proofs.Fuel Proofs.Final.

Theorem C15_refuted : exists c b, load_msh c b = Diverge.
Proof. exact (ex_intro _ c_release (ex_intro _ nan_file nan_file_diverges)). Qed.
Print Assumptions C15_refuted.

(** [Diverge] is an endless execution of the two loops, and nothing else is. *)
Theorem C15_forever : forall c b, load_msh c b = Diverge <-> runs_forever c b.
Proof. exact diverge_iff_forever. Qed.
Print Assumptions C15_forever.

Theorem C15_condition : forall c b,
  load_msh c b = Diverge <-> exists p, reached c b p /\ stuck (stream_of p).
Proof. exact diverge_iff_stuck. Qed.
Print Assumptions C15_condition.
