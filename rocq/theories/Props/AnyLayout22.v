(** C49: 2.2 files in any layout, with any sections in any order. *)

From Verif Require Import Model.LoadMsh Spec.Any22 Tests.Examples Tests.ExamplesAny22 Proofs.Any22P.

(** Any spelling of the numbers, any whitespace, loose words, physical names,
    data, splines and unknown sections anywhere: the loader returns the nodes
    and elements of the file in order, cut into runs of one entity, with the
    entities they name, and the other sections as they are. *)
Theorem C49_loaded : forall c ascii qs b lo hi, any22 ascii qs b -> Forall (sec22_ok c ascii) qs ->
  loadable c (parts_of qs) lo hi -> exists s, load_msh c b = Ok s /\ content22 ascii qs lo hi s.
Proof. exact any22_loads. Qed.
Print Assumptions C49_loaded.

Example C49_hyp : forall nd ascii, let c := {| ndebug := nd; nanospline := true; mem := 1000000 |} in
  any22 ascii ex_secs22 (ex_any22 ascii) /\ Forall (sec22_ok c ascii) ex_secs22 /\
  loadable c (parts_of ex_secs22) 1 5.
Proof.
  intros nd ascii c. split; [apply ex_any_22|]. split; [apply ex_secs22_ok|apply ex_loadable22; reflexivity].
Qed.
