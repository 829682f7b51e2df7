(** C66: what the exceptions say. *)

From Verif Require Import Model.Validate Model.Save Spec.Blame Spec.Numerals Spec.Messages Tests.Examples Proofs.ValidateP Proofs.BlameP
  Proofs.Reach Proofs.HazardsP Proofs.HeaderP Proofs.HeaderAnyP Proofs.MessageP Props.Validate Props.Header.

Ltac Zify.zify_post_hook ::= idtac.

(** validate_spec reports the first claim that is false. *)
Theorem C66_validate : forall s e, typed s -> validate_spec s = Throw e ->
  exists m, e = CorruptData (str m) /\ first_false (claims s) m.
Proof. intros s e T H. destruct (blames_validate s T) as (_ & B). exact (B e H). Qed.
Print Assumptions C66_validate.

Theorem C66_validate_iff : forall s m, typed s -> ~ divides_by_zero s -> ~ overflows s ->
  (validate_spec s = Throw (CorruptData (str m)) <-> first_false (claims s) m).
Proof.
  intros s m T N1 N2. destruct (blames_validate s T) as (A & B). destruct (C28_exact s T) as (_ & _ & X).
  destruct (X N1 N2) as [H|(m' & H)]; rewrite H; split.
  - discriminate.
  - intro F. exfalso. exact (first_not_all _ _ F (A H)).
  - intro E. injection E as ->. destruct (B _ H) as (m'' & E & F). injection E as E. apply str_inj in E. subst m''. exact F.
  - intro F. destruct (B _ H) as (m'' & E & F'). rewrite E. rewrite (first_unique _ _ _ F F'). reflexivity.
Qed.
Print Assumptions C66_validate_iff.

(** A tag above the range and, later, a wrong number of coordinates. *)
Definition two_faults : MshSpec :=
  with_blocks [{| nb_dim := 1; nb_tag := 1; nb_parametric := 1; nb_num := 2; nb_tags := [3; 10]; nb_data := [] |}] [] (str "4.1") true.
Example C66_validate_ex : typed two_faults /\ ~ divides_by_zero two_faults /\ ~ overflows two_faults /\
  first_false (claims two_faults) "Node tag > max node tag." /\
  validate_spec two_faults = Throw (CorruptData (str "Node tag > max node tag.")).
Proof.
  assert (T : typed two_faults) by constructor.
  assert (V : validate_spec two_faults = Throw (CorruptData (str "Node tag > max node tag."))) by reflexivity.
  split; [exact T|]. destruct (C28_exact _ T) as (A & B & _).
  split; [intro H; apply A in H; rewrite V in H; discriminate|].
  split; [intro H; apply B in H; rewrite V in H; discriminate|]. split; [|exact V].
  destruct (C66_validate _ _ T V) as (m & E & F). injection E as E. apply (str_inj "Node tag > max node tag." m) in E. subst m. exact F.
Qed.

(** load_msh: the closed list of what it says, and why. *)
Theorem C66_load : forall c b e, load_msh c b = Throw e ->
  memory e \/ exists w spec s, meets c b (str w) spec s /\ reason (mesh_format spec) (rest s) w e.
Proof. exact load_reason. Qed.
Print Assumptions C66_load.

(** No section is ever refused for its version: that of the spec being read is known. *)
Theorem C66_known : forall c b name spec s, meets c b name spec s ->
  version (mesh_format spec) = str "4.1" \/ version (mesh_format spec) = str "2.2".
Proof. exact meets_version. Qed.
Print Assumptions C66_known.

(** The header: the word, the size read and the version are quoted.  (C22: the
    version.) *)
Theorem C66_data_size : forall c b spec w1 w2 w3 nt nd t d r,
  meets c b (str "$MeshFormat") spec
    (opened (w1 ++ str "4.1" ++ w2 ++ nt ++ w3 ++ nd ++ r)) ->
  blank w1 -> blank w2 -> w2 <> [] -> blank w3 -> w3 <> [] -> integer nt t -> integer nd d ->
  ends_number r -> d <> 8 -> int_ok t ->
  load_msh c b = Throw (UnsupportedFeature (str "MSH file (v4.1) requested data size of " ++
    show_Z (Z.max INT_MIN (Z.min INT_MAX d)) ++ str " bytes, which is different than `size_t` (8 bytes)")).
Proof.
  intros c b spec w1 w2 w3 nt nd t d r M W1 W2 N2 W3 N3 Ht Hd R N T.
  destruct (size_says c b spec w1 w2 w3 nt nd t d r M W1 W2 N2 W3 N3 Ht Hd R N) as (_ & X).
  rewrite X by (apply int_in; exact T). unfold data_size_unsupported.
  replace (kept d) with (Z.max INT_MIN (Z.min INT_MAX d)) by apply kept_clamp. reflexivity.
Qed.
Print Assumptions C66_data_size.

Theorem C66_endianness : forall c b spec v w1 w2 w3 w4 nt nd t d r,
  meets c b (str "$MeshFormat") spec
    (opened (w1 ++ v ++ w2 ++ nt ++ w3 ++ nd ++ w4 ++ r)) ->
  v = str "2.2" \/ v = str "4.1" ->
  blank w1 -> blank w2 -> w2 <> [] -> blank w3 -> w3 <> [] -> integer nt t -> integer nd d ->
  t <> 0 -> Forall gap w4 -> ends_number (w4 ++ r) ->
  (forall x r', r = x :: r' -> ~ gap x) -> unle (firstn 4 r) <> 1 ->
  int_ok t -> int_ok d -> v = str "2.2" \/ d = 8 ->
  load_msh c b = Throw (UnsupportedFeature (str "MSH file (v" ++ v ++ str ") is encoded with unsupported endianness!")).
Proof.
  intros c b spec v w1 w2 w3 w4 nt nd t d r M V W1 W2 N2 W3 N3 Ht Hd T W4 E G U It Id S.
  destruct (marker_says c b spec v w1 w2 w3 w4 nt nd t d r M V W1 W2 N2 W3 N3 Ht Hd T W4 E G U) as (_ & X).
  apply X; [apply int_in; exact It|apply int_in; exact Id|exact S].
Qed.
Print Assumptions C66_endianness.

Section Ex.
Let file (h rest : bytes) := str "$MeshFormat" ++ endl ++ h ++ rest.

Example C66_data_size_ex : forall rest,
  load_msh c_debug (file (str "4.1 0 10000000000") (endl ++ rest)) = Throw (UnsupportedFeature (str
    "MSH file (v4.1) requested data size of 2147483647 bytes, which is different than `size_t` (8 bytes)")).
Proof.
  intro rest. etransitivity;
  [apply (C66_data_size c_debug _ spec_default endl sp sp (str "0") (str "10000000000") 0 10000000000 (endl ++ rest));
    [apply meets_first; reflexivity| | | | | |apply (integer_show 0)|exact ten_digits|..]; ex_words|reflexivity].
Qed.

Example C66_endianness_ex : forall rest,
  load_msh c_debug (file (str "4.1 1 8") (endl ++ rev (le 4 1) ++ rest)) = Throw (UnsupportedFeature (str
    "MSH file (v4.1) is encoded with unsupported endianness!")).
Proof.
  intro rest. apply (C66_endianness c_debug _ spec_default (str "4.1") endl sp sp endl (str "1") (str "8") 1 8 (rev (le 4 1) ++ rest));
    [apply meets_first; reflexivity|right; reflexivity| | | | | |apply (integer_show 1)|apply (integer_show 8)|..];
    try (ex_words; fail).
  - constructor; [|constructor]. right. right. left. reflexivity.
  - intros x r' E. cbn in E. injection E as <- _. unfold gap. cbn [In]. intuition discriminate.
  - right. reflexivity.
Qed.

(** Each of the other reasons. *)
Let head41 := file (str "4.1 0 8") (endl ++ str "$EndMeshFormat" ++ endl).
Let head22 := file (str "2.2 0 8") (endl ++ str "$EndMeshFormat" ++ endl).
Example C66_load_ex :
  map (load_msh c_release) [file (str "3 0 8") endl; head41 ++ str "$Elements 1 1 1 1 1 1 93 1";
    head22 ++ str "$Elements 1 1 -7 0"; head22 ++ str "$Entities"; head41 ++ str "$NodeData 0 0 2 0 1"] =
  [Throw (UnsupportedFeature (str "Unsupported MSH version: 3"));
   Throw (UnsupportedFeature (str "Unsupported element type: 93"));
   Throw (UnsupportedFeature (str "Unsupported element type: -7"));
   Throw (InvalidFormat (str "$Entities section not supported by MSH version 2.2"));
   Throw (InvalidFormat (str "Data requires at least 3 int tags."))].
Proof. vm_compute. reflexivity. Qed.
End Ex.

(** save_msh: the version of the spec or the type of a block. *)
Theorem C66_save : forall c s e, snd (save_msh c s) = Throw e ->
  let v := version (mesh_format s) in
  (v <> str "4.1" /\ v <> str "2.2" /\
     (e = UnsupportedFeature (str "Unsupported MSH version: " ++ v) \/ e = InvalidFormat (str "Unsupported version " ++ v))) \/
  exists b, In b (e_blocks (elements s)) /\ ~ 1 <= eb_type b <= 31 /\
    e = UnsupportedFeature (str "Unsupported element type: " ++ show_Z (eb_type b)).
Proof.
  intros c s e H. cbv zeta.
  match goal with |- ?G => pose proof (save_go c s (fun e => ltac:(let g := eval pattern e in G in
    match g with ?f _ => exact (f e) end)) (fun _ => True) I I I) as X end.
  destruct X as (_ & B).
  - intros b Ib N. right. exists b. auto.
  - intros N1 N2. left. auto.
  - intros N1 N2. left. auto.
  - rewrite H in B. exact B.
Qed.
Print Assumptions C66_save.

Example C66_save_ex :
  snd (save_msh c_release (with_blocks [] [{| eb_dim := 1; eb_tag := 1; eb_type := 32; eb_num := 0; eb_data := [] |}] (str "2.2") true)) =
    Throw (UnsupportedFeature (str "Unsupported element type: 32")) /\
  snd (save_msh c_release (with_blocks [] [empty_block] (str "3.0") true)) = Throw (UnsupportedFeature (str "Unsupported MSH version: 3.0")).
Proof. vm_compute. split; reflexivity. Qed.

(** what() gives the message up to the first NUL, if there is one. *)
Theorem C66_what : forall m, exists t,
  (m = t \/ exists r, m = t ++ x00 :: r) /\ ~ In x00 t /\
  what (UnsupportedFeature m) = Some t /\ what (InvalidFormat m) = Some t /\ what (CorruptData m) = Some t /\
  what (RuntimeError m) = Some t.
Proof.
  intro m. exists (c_str m). split; [|split; [|repeat split; reflexivity]].
  - induction m as [|x m IH]; [left; reflexivity|].
    destruct (Byte.byte_eq_dec x x00) as [->|N]; [right; exists m; reflexivity|].
    rewrite c_str_cons by exact N. destruct IH as [E|(r & E)]; [left; congruence|right].
    exists r. cbn [app]. congruence.
  - induction m as [|x m IH]; [intros []|].
    destruct (Byte.byte_eq_dec x x00) as [->|N]; [intros []|].
    rewrite c_str_cons by exact N. intros [E|I]; [congruence|exact (IH I)].
Qed.
Print Assumptions C66_what.

Example C66_what_ex : exists e, load_msh c_release (str "$MeshFormat 4" ++ x00 :: str ".1 0 8") = Throw e /\
  what e = Some (str "Unsupported MSH version: 4").
Proof. eexists. split; [vm_compute; reflexivity|reflexivity]. Qed.
