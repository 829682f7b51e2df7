(** Statements of Props/ assembled from the lemmas of the other files. *)

From Verif Require Import Model.Save Spec.Consistent Spec.Steps Spec.Rounding Tests.Examples
  Proofs.RtBase Proofs.ShowP Proofs.RtStep Proofs.Rt41 Proofs.RoundP Proofs.TextP Proofs.Fuel Proofs.ElemP.

Lemma rt41 : forall a, exists r : dbl -> dbl,
  (forall x, size_ok x -> finite x -> six_digits_of x (r x)) /\
  forall c s, consistent41 c a s ->
    exists b, save_msh c s = (b, Ok tt) /\ load_msh c b = Ok (via41 a r (nanospline c) s).
Proof. intro a. exists ascii_round. split; [exact ascii_round_six|]. intros c s. apply roundtrip41. Qed.

Lemma precision_lost : exists c s b s',
  consistent41 c true s /\ save_msh c s = (b, Ok tt) /\ load_msh c b = Ok s' /\
  List.concat (map nb_data (n_blocks (nodes s'))) <> List.concat (map nb_data (n_blocks (nodes s))).
Proof.
  pose proof (ex_spec_41 true true) as H.
  destruct (roundtrip41 _ _ _ H) as (b & E1 & E2).
  exists c_release, (ex_spec (str "4.1") true), b. eexists.
  split; [exact H|]. split; [exact E1|]. split; [exact E2|].
  intro E. apply (f_equal (fun l => nth 3 l 0)) in E. vm_compute in E. discriminate E.
Qed.

(** A number that is not one: "nan" as a coordinate. *)
Definition nan_file : bytes :=
  str "$MeshFormat" ++ endl ++ str "4.1 0 8" ++ endl ++ str "$EndMeshFormat" ++ endl ++
  str "$Nodes" ++ endl ++ str "1 1 1 1" ++ endl ++ str "0 1 0 1" ++ endl ++ str "1" ++ endl ++
  str "nan 0 0" ++ endl ++ str "$EndNodes" ++ endl.

Lemma nan_file_diverges : load_msh c_release nan_file = Diverge.
Proof. vm_compute. reflexivity. Qed.

Lemma splines_kept41 : exists r : dbl -> dbl,
  (forall x, size_ok x -> finite x -> six_digits_of x (r x)) /\
  forall c a s, nanospline c = true -> consistent41 c a s ->
    exists b s', save_msh c s = (b, Ok tt) /\ load_msh c b = Ok s' /\
      ns_version s' = ns_version s /\ curves s' = map (curve_via a r) (curves s) /\
      patches s' = map (patch_via a r) (patches s).
Proof.
  exists ascii_round. split; [exact ascii_round_six|]. intros c a s Hn H.
  destruct (roundtrip41 c a s H) as (b & E1 & E2). exists b. eexists.
  split; [exact E1|]. split; [exact E2|]. rewrite Hn. repeat split.
Qed.

Lemma dm2_six : six_digit dm2.
Proof. exists (-2), 0. split; [reflexivity|]. left. vm_compute. reflexivity. Qed.
