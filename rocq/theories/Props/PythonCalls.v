(** C67: what the functions of the Python module raise.  [until_nul b t]: [t] is
    [b] up to its first NUL character. *)

From Verif Require Import Model.PyCalls Spec.Blame Spec.Messages Spec.Gmsh Spec.Python Tests.Examples Proofs.BytesP Proofs.HeaderP Proofs.Reach
  Proofs.ElemP Proofs.Utf8P Proofs.PythonP Proofs.BlameP Proofs.HazardsP Proofs.MessageP Proofs.PyCallsP Props.Validate Props.Messages.

Ltac Zify.zify_post_hook ::= idtac.

Definition until_nul (b t : bytes) : Prop := ~ In x00 t /\ (b = t \/ exists r, b = t ++ x00 :: r).

Lemma until_c_str : forall b, until_nul b (c_str b).
Proof.
  intro b. split; [|exact (c_str_cases b)]. induction b as [|x b IH]; [intros []|].
  destruct (Byte.byte_eq_dec x x00) as [->|N]; [intros []|]. rewrite c_str_cons by exact N. intros [E|I]; [congruence|exact (IH I)].
Qed.
Lemma until_unique : forall b t, until_nul b t -> t = c_str b.
Proof.
  intros b t (N & H). revert b H. induction t as [|x t IH]; intros b H.
  - destruct H as [->|(r & ->)]; reflexivity.
  - assert (X : x <> x00) by (intro; subst; apply N; left; reflexivity).
    assert (N' : ~ In x00 t) by (intro I; apply N; right; exact I).
    destruct H as [->|(r & ->)]; cbn [app]; rewrite c_str_cons by exact X; f_equal; apply (IH N'); [left; reflexivity|right; exists r; reflexivity].
Qed.

(** load_msh raises MemoryError or ValueError for lack of memory, and
    RuntimeError with the text of the C++ exception, except for a header whose
    version is not UTF-8. *)
Theorem C67_load : forall c st name path x, until_nul name path -> py_load_msh c st name = Raises x ->
  x = PyMemoryError \/ x = PyValueError \/
  (files st path = None /\ x = PyRuntimeError (str "Input file does not exist!")) \/
  (exists b e t, files st path = Some b /\ load_msh c b = Throw e /\ what e = Some t /\ utf8 t /\ x = PyRuntimeError t) \/
  (x = PyUnicodeDecodeError /\ exists b spec w v r t, files st path = Some b /\
     meets c b (str "$MeshFormat") spec (opened (w ++ v ++ r)) /\ blank w /\ word v /\ ends_word r /\
     v <> str "2.2" /\ v <> str "4.1" /\ until_nul v t /\ ~ utf8 t).
Proof.
  intros c st name path x U H. apply until_unique in U. subst path. unfold py_load_msh, load_file in H.
  destruct (files st (c_str name)) as [b|] eqn:F.
  - destruct (load_msh c b) as [s|e|u| |] eqn:L; try discriminate. injection H as <-.
    destruct (C66_load c b e L) as [[->| ->]|(w & spec & s & M & R)]; [right; left; reflexivity|left; reflexivity|].
    right. right. right. destruct (reason_raised _ _ _ _ R) as [(t & A & B & C)|(A & -> & u & v & r & E & B & V & T & N2 & N4 & N & _)].
    + left. exists b, e, t. auto.
    + right. split; [exact A|]. exists b, spec, u, v, r, (c_str v). split; [reflexivity|].
      assert (O : s = opened (u ++ v ++ r)).
      { rewrite <- E. eapply meets_open; [exact M|discriminate|]. rewrite E. destruct V as (V & _). destruct u; [|discriminate].
        destruct v; [congruence|discriminate]. }
      rewrite <- O. repeat (split; [assumption|]). split; [apply until_c_str|exact N].
  - cbn [called] in H. injection H as <-. right. right. left. split; reflexivity.
Qed.
Print Assumptions C67_load.

Theorem C67_unicode : forall c st name b spec w v r t, until_nul name name ->
  files st name = Some b -> meets c b (str "$MeshFormat") spec (opened (w ++ v ++ r)) -> blank w -> word v -> ends_word r ->
  v <> str "2.2" -> v <> str "4.1" -> until_nul v t ->
  (utf8 t -> py_load_msh c st name = Raises (PyRuntimeError (str "Unsupported MSH version: " ++ t))) /\
  (~ utf8 t -> py_load_msh c st name = Raises PyUnicodeDecodeError).
Proof.
  intros c st name b spec w v r t U F M W V R N2 N4 T. apply until_unique in U, T. unfold py_load_msh, load_file.
  rewrite <- U, F, (header_version _ _ _ _ _ _ M W V R N2 N4). cbn [called].
  assert (S : solid (str "Unsupported MSH version: ")) by (apply solid_str; reflexivity).
  destruct (raised_version _ v S) as (X & _). rewrite X, <- T. split; intro H.
  - apply ok_utf8_iff in H. rewrite H. reflexivity.
  - destruct (utf8_ok t) eqn:K; [|reflexivity]. apply ok_utf8_iff in K. contradiction.
Qed.
Print Assumptions C67_unicode.

(** Latin-1 in the header, and a NUL. *)
Definition one_file (b : bytes) : fs := {| files := fun n => if bytes_eqb n (str "a.msh") then Some b else None; writable := fun _ => true |}.
Example C67_load_ex :
  py_load_msh c_release (one_file (str "$MeshFormat 4" ++ xe9 :: str " 0 8")) (str "a.msh") = Raises PyUnicodeDecodeError /\
  py_load_msh c_release (one_file (str "$MeshFormat 4" ++ x00 :: xe9 :: str " 0 8")) (str "a.msh" ++ [x00; x21]) =
    Raises (PyRuntimeError (str "Unsupported MSH version: 4")) /\
  py_load_msh c_release (one_file []) (str "b.msh") = Raises (PyRuntimeError (str "Input file does not exist!")).
Proof. vm_compute. repeat split; reflexivity. Qed.

(** save_msh raises RuntimeError only, for every version that is a str. *)
Theorem C67_save : forall c cap st name s st' x, py_save_msh c cap st name s = (st', Raises x) -> utf8 (version (mesh_format s)) ->
  exists t, utf8 t /\ x = PyRuntimeError t /\
    (t = str "Unable to open output file to write!" \/ exists e, snd (save_msh c s) = Throw e /\ what e = Some t).
Proof.
  intros c cap st name s st' x H V. unfold py_save_msh, save_file in H. destruct (writable st (c_str name)).
  - destruct (save_msh c s) as [b r] eqn:E. destruct r as [[]|e|u| |]; cbn [called] in H; try discriminate.
    injection H as _ <-. assert (T : snd (save_msh c s) = Throw e) by (rewrite E; reflexivity).
    assert (G : forall p v, solid p -> utf8 v -> raised (UnsupportedFeature (p ++ v)) = PyRuntimeError (p ++ c_str v) /\
      raised (InvalidFormat (p ++ v)) = PyRuntimeError (p ++ c_str v) /\ utf8 (p ++ c_str v) /\ c_str (p ++ v) = p ++ c_str v).
    { intros p v S U. pose proof (c_str_utf8 _ U) as U'. apply ok_utf8_iff in U'. destruct (raised_version p v S) as (A & B).
      rewrite U' in A, B. split; [exact A|]. split; [exact B|]. split; [|apply c_str_solid; exact S].
      apply ok_utf8_iff. rewrite ok_ascii by (apply solid_ascii; exact S). exact U'. }
    destruct (C66_save c s e T) as [(_ & _ & [->| ->])|(bl & _ & _ & ->)].
    + destruct (G (str "Unsupported MSH version: ") _ ltac:(apply solid_str; reflexivity) V) as (A & _ & B & C).
      eexists. split; [exact B|]. split; [exact A|]. right. eexists. split; [reflexivity|]. cbn [what]. rewrite C. reflexivity.
    + destruct (G (str "Unsupported version ") _ ltac:(apply solid_str; reflexivity) V) as (_ & A & B & C).
      eexists. split; [exact B|]. split; [exact A|]. right. eexists. split; [reflexivity|]. cbn [what]. rewrite C. reflexivity.
    + assert (S : solid (str "Unsupported element type: " ++ show_Z (eb_type bl))) by sol.
      eexists. split; [|split; [apply (raised_solid _ S)|]].
      * apply ok_utf8_iff, ascii_ok, solid_ascii, S.
      * right. eexists. split; [reflexivity|]. cbn [what]. rewrite (c_str_all _ S). reflexivity.
  - cbn [called] in H. injection H as _ <-. exists (str "Unable to open output file to write!").
    split; [apply ok_utf8_iff; reflexivity|]. split; [reflexivity|left; reflexivity].
Qed.
Print Assumptions C67_save.

Example C67_save_ex : snd (py_save_msh c_release None (one_file []) (str "a.msh") (with_blocks [] [] (str "3.0") true)) =
  Raises (PyRuntimeError (str "Unsupported MSH version: 3.0")).
Proof. vm_compute. reflexivity. Qed.

(** validate_spec raises RuntimeError with the message of the first false claim. *)
Theorem C67_validate : forall s x, typed s -> py_validate_spec s = Raises x ->
  exists m, first_false (claims s) m /\ x = PyRuntimeError (str m).
Proof.
  intros s x T H. unfold py_validate_spec in H. destruct (validate_spec s) as [[]|e|u| |] eqn:V; cbn [called] in H; try discriminate.
  injection H as <-. destruct (C66_validate s e T V) as (m & -> & F). exists m. split; [exact F|].
  apply raised_solid. exact (first_clear s m F).
Qed.
Print Assumptions C67_validate.

Example C67_validate_ex : py_validate_spec two_faults = Raises (PyRuntimeError (str "Node tag > max node tag.")).
Proof. reflexivity. Qed.

(** The two tables. *)
Theorem C67_tables : forall t,
  py_nodes_per_element t = match gmsh_nodes t with Some n => Returns n | None => Raises (PyRuntimeError (str "Unsupported element type: " ++ show_Z t)) end /\
  py_get_element_dim t = match gmsh_dim t with Some d => Returns d | None => Raises (PyRuntimeError (str "Unsupported element type: " ++ show_Z t)) end.
Proof.
  intro t. unfold py_nodes_per_element, py_get_element_dim. destruct (tables t) as (-> & ->).
  assert (R : raised (UnsupportedFeature (str "Unsupported element type: " ++ show_Z t)) = PyRuntimeError (str "Unsupported element type: " ++ show_Z t)).
  { apply raised_solid. sol. }
  split; [destruct (gmsh_nodes t)|destruct (gmsh_dim t)]; cbn [called]; congruence.
Qed.
Print Assumptions C67_tables.

Example C67_tables_ex : py_nodes_per_element 11 = Returns 10 /\ py_get_element_dim 11 = Returns 3 /\
  py_nodes_per_element (-4) = Raises (PyRuntimeError (str "Unsupported element type: -4")).
Proof. repeat split; reflexivity. Qed.
