(** C22, C24, C42: headers that load_msh rejects. [meets c b name spec s] says
    that the section loop of load_msh on input [b] arrives at the marker [name]
    with the spec read so far in [spec] and the rest of the file in [s]. *)

From Verif Require Import Model.Save Spec.Words Spec.Steps Spec.Numerals Tests.Examples Proofs.Reach
  Proofs.HeaderP Proofs.HeaderAnyP Proofs.SkipP.

Theorem C22_version : forall c b spec w v r,
  meets c b (str "$MeshFormat") spec (opened (w ++ v ++ r)) ->
  blank w -> word v -> ends_word r ->
  v <> str "2.2" -> v <> str "4.1" ->
  load_msh c b = Throw (UnsupportedFeature (str "Unsupported MSH version: " ++ v)).
Proof. exact header_version. Qed.
Print Assumptions C22_version.

(** The numbers are written in any way: signs, leading zeros, and values that no int holds. *)
Theorem C22_data_size : forall c b spec w1 w2 w3 nt nd t d r,
  meets c b (str "$MeshFormat") spec
    (opened (w1 ++ str "4.1" ++ w2 ++ nt ++ w3 ++ nd ++ r)) ->
  blank w1 -> blank w2 -> w2 <> [] -> blank w3 -> w3 <> [] -> integer nt t -> integer nd d ->
  ends_number r -> d <> 8 -> exists m, load_msh c b = Throw (UnsupportedFeature m).
Proof. intros. eapply size_says; eassumption. Qed.
Print Assumptions C22_data_size.

Theorem C22_marker : forall c b spec v w1 w2 w3 w4 nt nd t d r,
  meets c b (str "$MeshFormat") spec
    (opened (w1 ++ v ++ w2 ++ nt ++ w3 ++ nd ++ w4 ++ r)) ->
  v = str "2.2" \/ v = str "4.1" ->
  blank w1 -> blank w2 -> w2 <> [] -> blank w3 -> w3 <> [] -> integer nt t -> integer nd d ->
  t <> 0 -> Forall gap w4 -> ends_number (w4 ++ r) ->
  (forall x r', r = x :: r' -> ~ gap x) -> unle (firstn 4 r) <> 1 ->
  exists m, load_msh c b = Throw (UnsupportedFeature m).
Proof. intros. eapply marker_says; eassumption. Qed.
Print Assumptions C22_marker.

Section Ex.
Let file (h rest : bytes) := str "$MeshFormat" ++ endl ++ h ++ rest.

Example C22_version_ex : forall rest,
  load_msh c_release (file (str "4.0 0 8") (endl ++ rest)) =
  Throw (UnsupportedFeature (str "Unsupported MSH version: 4.0")).
Proof.
  intro rest. apply (C22_version c_release _ spec_default endl (str "4.0") (str " 0 8" ++ endl ++ rest));
    [apply meets_first; reflexivity|ex_words..].
Qed.

Example C22_data_size_ex : forall rest,
  exists m, load_msh c_debug (file (str "4.1 1 4") (endl ++ rest)) = Throw (UnsupportedFeature m).
Proof.
  intro rest. apply (C22_data_size c_debug _ spec_default endl sp sp (str "1") (str "4") 1 4 (endl ++ rest));
    [apply meets_first; reflexivity| | | | | |apply (integer_show 1)|apply (integer_show 4)|..]; ex_words.
Qed.

(** A data size that no int holds. *)
Lemma ten_digits : integer (str "10000000000") 10000000000.
Proof. apply (integer_show 10000000000). Qed.

Example C22_data_size_wide_ex : forall rest,
  exists m, load_msh c_debug (file (str "4.1 0 10000000000") (endl ++ rest)) = Throw (UnsupportedFeature m).
Proof.
  intro rest.
  apply (C22_data_size c_debug _ spec_default endl sp sp (str "0") (str "10000000000") 0 10000000000 (endl ++ rest));
    [apply meets_first; reflexivity| | | | | |apply (integer_show 0)|exact ten_digits|..]; ex_words.
Qed.

(** A file type that no int holds, written with a plus sign. *)
Example C22_marker_wide_ex : forall rest,
  exists m, load_msh c_debug (file (str "2.2 +10000000000 8") (endl ++ str "$EndMeshFormat" ++ rest)) = Throw (UnsupportedFeature m).
Proof.
  intro rest. apply (C22_marker c_debug _ spec_default (str "2.2") endl sp sp endl (str "+10000000000") (str "8")
    10000000000 8 (str "$EndMeshFormat" ++ rest));
    [apply meets_first; reflexivity|left; reflexivity| | | | | | |apply (integer_show 8)|..];
    try (ex_words; fail).
  - exists (str "+"), false, (str "10000000000"), 11, 10000000000.
    split; [reflexivity|]. split; [constructor|]. split; [|split; [discriminate|reflexivity]].
    apply (digits_chrs [1; 0; 0; 0; 0; 0; 0; 0; 0; 0; 0]). repeat constructor; discriminate.
  - constructor; [|constructor]. right. right. left. reflexivity.
  - intros x r' E. cbn in E. injection E as <- _. unfold gap. cbn [In]. intuition discriminate.
Qed.

(** The marker with the byte order reversed. *)
Example C22_marker_ex : forall rest,
  exists m, load_msh c_debug (file (str "4.1 1 8") (endl ++ rev (le 4 1) ++ rest)) = Throw (UnsupportedFeature m).
Proof.
  intro rest. apply (C22_marker c_debug _ spec_default (str "4.1") endl sp sp endl (str "1") (str "8") 1 8 (rev (le 4 1) ++ rest));
    [apply meets_first; reflexivity|right; reflexivity| | | | | |apply (integer_show 1)|apply (integer_show 8)|..];
    try (ex_words; fail).
  - constructor; [|constructor]. right. right. left. reflexivity.
  - intros x r' E. cbn in E. injection E as <- _. unfold gap. cbn [In]. intuition discriminate.
Qed.
End Ex.

Theorem C24_not_loadable : forall c s b r, save_msh c s = (b, r) ->
  word (version (mesh_format s)) -> int_ok (file_type (mesh_format s)) ->
  int_ok (data_size (mesh_format s)) ->
  file_type (mesh_format s) <> 0 -> file_type (mesh_format s) <> 1 ->
  forall c', exists m, load_msh c' b = Throw (UnsupportedFeature m).
Proof. exact odd_type. Qed.
Print Assumptions C24_not_loadable.

(** A spec with file_type 2 is written without complaint. *)
Definition odd_spec : MshSpec :=
  set_format {| version := str "4.1"; file_type := 2; data_size := 8 |} spec_default.
Example C24_ex : (exists b, save_msh c_release odd_spec = (b, Ok tt)) /\
  exists m, load_msh c_debug (fst (save_msh c_release odd_spec)) = Throw (UnsupportedFeature m).
Proof.
  split.
  - eexists. cbv -[Z.add]. reflexivity.
  - apply (C24_not_loadable c_release odd_spec _ (snd (save_msh c_release odd_spec)));
      [destruct (save_msh c_release odd_spec); reflexivity|ex_words..].
Qed.

Theorem C42_rejected : forall c b spec s, meets c b (str "$Entities") spec s ->
  version (mesh_format spec) = str "2.2" -> load_msh c b = Throw (InvalidFormat (str "$Entities section not supported by MSH version 2.2")).
Proof. exact entities22. Qed.
Print Assumptions C42_rejected.

Example C42_ex : forall junk,
  load_msh c_release (str "$MeshFormat 2.2 0 8 $EndMeshFormat $Entities" ++ sp ++ junk) = Throw (InvalidFormat (str "$Entities section not supported by MSH version 2.2")).
Proof.
  intro junk. set (f := {| version := str "2.2"; file_type := 0; data_size := 8 |}).
  apply (C42_rejected c_release _ (set_format f spec_default) (opened (sp ++ junk))); [|reflexivity].
  exists (opened (str " $Entities" ++ sp ++ junk)). split; [|split; reflexivity].
  exists 3%nat.
  eapply Steps.steps_S; [eapply step_section; reflexivity|].
  eapply Steps.steps_S; [eapply step_skip; [reflexivity|discriminate|reflexivity]|].
  eapply Steps.steps_S; [apply step_found; right; reflexivity|apply steps_0].
Qed.
