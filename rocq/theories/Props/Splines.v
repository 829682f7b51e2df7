(** C73: builds with and without splines read each other's files. *)

From Verif Require Import Model.Save Spec.Consistent Spec.Consistent22 Spec.Splines Tests.Examples Tests.ExamplesSplines
  Proofs.SplinesP.

(** A build with the extension writes what the other one writes and then more:
    the version of the extension, even if there are no splines. *)
Theorem C73_longer : forall c c' s, nanospline c = true -> nanospline c' = false ->
  (snd (save_msh c' s) = Ok tt -> exists r, fst (save_msh c s) = fst (save_msh c' s) ++ str "$NanoSplineFormat" ++ r) /\
  (snd (save_msh c' s) <> Ok tt -> save_msh c s = save_msh c' s).
Proof. exact longer. Qed.
Print Assumptions C73_longer.

Example C73_longer_ex : save_msh {| ndebug := true; nanospline := true; mem := 0 |} (set_format {| version := str "4.1"; file_type := 0; data_size := 8 |} spec_default) =
  (str "$MeshFormat" ++ endl ++ str "4.1 0 8" ++ endl ++ str "$EndMeshFormat" ++ endl ++
   str "$NanoSplineFormat" ++ endl ++ str "1.0" ++ endl ++ str "$EndNanoSplineFormat" ++ endl, Ok tt).
Proof. reflexivity. Qed.

(** A build without the extension reads a file of one with it as the same mesh
    without the splines.  In binary files the numbers must not contain a dollar
    sign. *)
Theorem C73_read41 : forall c c' a s, nanospline c = true -> nanospline c' = false ->
  consistent41 c a s -> consistent41 c' a s -> (a = false -> Forall dollar_free (spline_values s)) ->
  exists b s', save_msh c s = (b, Ok tt) /\ load_msh c b = Ok s' /\ load_msh c' b = Ok (mesh_only s').
Proof. exact read41. Qed.
Print Assumptions C73_read41.

Theorem C73_read22 : forall c c' a s, nanospline c = true -> nanospline c' = false ->
  consistent22 c a s -> consistent22 c' a s -> (a = false -> Forall dollar_free (spline_values s)) ->
  exists b s', save_msh c s = (b, Ok tt) /\ load_msh c b = Ok s' /\ load_msh c' b = Ok (mesh_only s').
Proof. exact read22. Qed.
Print Assumptions C73_read22.

(** And the other way round, nothing is different. *)
Theorem C73_back41 : forall c c' a s, nanospline c' = false -> consistent41 c' a s -> consistent41 c a (no_splines s) ->
  exists b s', save_msh c' s = (b, Ok tt) /\ load_msh c' b = Ok s' /\ load_msh c b = Ok s'.
Proof. exact back41. Qed.
Print Assumptions C73_back41.

Theorem C73_back22 : forall c c' a s, nanospline c' = false -> consistent22 c' a s -> consistent22 c a (no_splines s) ->
  exists b s', save_msh c' s = (b, Ok tt) /\ load_msh c' b = Ok s' /\ load_msh c b = Ok s'.
Proof. exact back22. Qed.
Print Assumptions C73_back22.

(** The builds of the examples. *)
Definition c_splines := {| ndebug := true; nanospline := true; mem := 1000000 |}.
Definition c_plain := {| ndebug := true; nanospline := false; mem := 1000000 |}.

Lemma dollar_free_bytes : forall x, forallb (fun i => negb ((x / 256 ^ i) mod 256 =? 36)) [0; 1; 2; 3; 4; 5; 6; 7] = true -> dollar_free x.
Proof.
  intros x H i Hi. rewrite forallb_forall in H.
  assert (I : In i [0; 1; 2; 3; 4; 5; 6; 7]) by (cbn [In]; lia).
  specialize (H i I). apply negb_true_iff, Z.eqb_neq in H. exact H.
Qed.

Example C73_hyp : forall a,
  consistent41 c_splines a (ex_spec (str "4.1") a) /\ consistent41 c_plain a (ex_spec (str "4.1") a) /\
  consistent22 c_splines a (ex_spec (str "2.2") a) /\ consistent22 c_plain a (ex_spec (str "2.2") a) /\
  consistent41 c_splines a (no_splines (ex_spec (str "4.1") a)) /\
  consistent22 c_splines a (no_splines (ex_spec (str "2.2") a)) /\
  Forall dollar_free (spline_values (ex_spec (str "4.1") a)) /\
  curves (ex_spec (str "4.1") a) <> [].
Proof.
  intro a. split; [apply ex_any_41|]. split; [apply ex_any_41|]. split; [apply ex_any_22|]. split; [apply ex_any_22|].
  split; [apply ex_bare_41|]. split; [apply ex_bare_22|]. split; [|discriminate].
  cbn [spline_values ex_spec curves patches flat_map ex_curve ex_patch cv_data pt_data app].
  ex_forall; apply dollar_free_bytes; reflexivity.
Qed.

(** With a dollar sign it is false: the build without the extension takes the
    bytes of a curve for a section and loses the physical groups. *)
Theorem C73_dollar_refuted : exists s b s1 s2, consistent41 c_splines false s /\ consistent41 c_plain false s /\
  save_msh c_splines s = (b, Ok tt) /\ load_msh c_splines b = Ok s1 /\ load_msh c_plain b = Ok s2 /\
  physical_groups s1 = physical_groups s /\ physical_groups s <> [] /\ physical_groups s2 = [].
Proof.
  exists trick. eexists. eexists. eexists. split; [apply trick_41|]. split; [apply trick_41|].
  split; [vm_compute; reflexivity|]. split; [vm_compute; reflexivity|]. split; [vm_compute; reflexivity|].
  split; [reflexivity|]. split; [discriminate|reflexivity].
Qed.
Print Assumptions C73_dollar_refuted.
