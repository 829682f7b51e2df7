(** C01, C02, C41: round trips of version 4.1. *)

From Verif Require Import Model.Save Spec.Consistent Spec.Rounding Tests.Examples
  Proofs.Final Proofs.ExtP.

Theorem C01_binary41_roundtrip : exists r : dbl -> dbl,
  (forall x, size_ok x -> finite x -> six_digits_of x (r x)) /\
  forall c s, consistent41 c false s ->
    exists b, save_msh c s = (b, Ok tt) /\ load_msh c b = Ok (via41 false r (nanospline c) s).
Proof. exact (rt41 false). Qed.
Print Assumptions C01_binary41_roundtrip.

Example C01_hyp : consistent41 c_debug false (ex_spec (str "4.1") false).
Proof. exact (ex_spec_41 false false). Qed.

Theorem C02_ascii41_roundtrip : exists r : dbl -> dbl,
  (forall x, size_ok x -> finite x -> six_digits_of x (r x)) /\
  forall c s, consistent41 c true s ->
    exists b, save_msh c s = (b, Ok tt) /\ load_msh c b = Ok (via41 true r (nanospline c) s).
Proof. exact (rt41 true). Qed.
Print Assumptions C02_ascii41_roundtrip.

Example C02_hyp : consistent41 c_debug true (ex_spec (str "4.1") true).
Proof. exact (ex_spec_41 false true). Qed.

Theorem C41_kept : exists r : dbl -> dbl,
  (forall x, size_ok x -> finite x -> six_digits_of x (r x)) /\
  forall c a s, nanospline c = true -> consistent41 c a s ->
    exists b s', save_msh c s = (b, Ok tt) /\ load_msh c b = Ok s' /\
      ns_version s' = ns_version s /\ curves s' = map (curve_via a r) (curves s) /\
      patches s' = map (patch_via a r) (patches s).
Proof. exact splines_kept41. Qed.
Print Assumptions C41_kept.

Theorem C41_not_loaded : forall c b s, nanospline c = false -> load_msh c b = Ok s ->
  curves s = [] /\ patches s = [].
Proof. exact load_no_splines. Qed.
Print Assumptions C41_not_loaded.

Theorem C41_not_saved : forall c s v cs ps, nanospline c = false ->
  save_msh c (set_ns_version v (set_curves cs (set_patches ps s))) = save_msh c s.
Proof. exact save_no_splines. Qed.
Print Assumptions C41_not_saved.
