(** C62: what Python shows of the objects of the module. *)

From Verif Require Import Spec.Python Tests.Examples Proofs.BytesP Proofs.PyFloatP Proofs.PythonP Proofs.PyShownP.
From Verif Require Props.Loaded.

(** What is shown of an object of any class are its attributes in order, with
    the text of their values: the shortest numerals, the six decimals closest
    to the double, the lengths of lists or (in Data and MshSpec) their items. *)
Theorem C62_shown : forall o t, floats_ok o -> py_repr o = Some t -> shown_as o t.
Proof. exact repr_shown. Qed.
Print Assumptions C62_shown.

Definition ex_point : PointEntity :=
  {| pe_tag := 7; pe_x := 0; pe_y := 4609434218613702656; pe_z := 2 ^ 63; pe_phys := [1; 2] |}.

Example C62_shown_ex : floats_ok (OPoint ex_point) /\
  py_repr (OPoint ex_point) =
    Some (str "PointEntity(tag=7, x=0.000000, y=1.500000, z=-0.000000, physical_group_tags=2)").
Proof.
  split; [|vm_compute; reflexivity]. intros n d H. cbn [attributes In] in H. unfold size_ok.
  destruct H as [H|[H|[H|[H|[H|[]]]]]]; try discriminate; injection H as _ <-; split; vm_compute; congruence.
Qed.

(** Anything can be shown exactly if the strings to be shown are UTF-8;
    otherwise repr raises UnicodeDecodeError. *)
Theorem C62_utf8 : forall o, (exists t, py_repr o = Some t) <-> Forall utf8 (strings o).
Proof. exact repr_utf8. Qed.
Print Assumptions C62_utf8.

(** A file that loads but cannot be shown, and the same in UTF-8. *)
Definition ex_file (name : bytes) : bytes :=
  Props.Loaded.header_41 false ++ str "$PhysicalNames 1 2 1 ""M" ++ name ++ str "e"" $EndPhysicalNames ".
Example C62_utf8_ex :
  (exists s, load_msh c_release (ex_file [xe9]) = Ok s /\ py_repr (OSpec s) = None) /\
  (exists s t, load_msh c_release (ex_file [xc3; xa9]) = Ok s /\ py_repr (OSpec s) = Some t).
Proof.
  split; [|eexists]; eexists; (split; [vm_compute; reflexivity|]); vm_compute; reflexivity.
Qed.

(** From what is shown of a MshSpec one can tell its outline if versions have
    no commas and names no closing parentheses. *)
Theorem C62_same : forall s s' t, plain_strings s -> plain_strings s' ->
  py_repr (OSpec s) = Some t -> py_repr (OSpec s') = Some t -> outline s = outline s'.
Proof. exact repr_same. Qed.
Print Assumptions C62_same.

Example C62_same_ex : plain_strings (ex_spec (str "4.1") true) /\
  py_repr (OSpec (ex_spec (str "4.1") true)) <> py_repr (OSpec (ex_spec (str "4.1") false)) /\
  outline (ex_spec (str "4.1") true) <> outline (ex_spec (str "4.1") false).
Proof.
  split; [|split; [vm_compute; discriminate|intro E; apply (f_equal (fun o => file_type (fst (fst (fst (fst (fst o))))))) in E; discriminate]].
  split; [|constructor; [|constructor]]; cbn; intuition discriminate.
Qed.

(** Nothing else can be told. *)
Theorem C62_blind : forall s s', outline s = outline s' -> py_repr (OSpec s) = py_repr (OSpec s').
Proof. exact spec_factor. Qed.
Print Assumptions C62_blind.

(** The nodes themselves are not shown. *)
Definition ex_moved (s : MshSpec) : MshSpec := set_nodes
  {| n_num_blocks := n_num_blocks (nodes s); n_num_nodes := n_num_nodes (nodes s);
     n_min := n_min (nodes s); n_max := n_max (nodes s); n_blocks := [] |} s.
Example C62_blind_ex : outline (ex_spec (str "4.1") true) = outline (ex_moved (ex_spec (str "4.1") true)) /\
  nodes (ex_spec (str "4.1") true) <> nodes (ex_moved (ex_spec (str "4.1") true)).
Proof. split; [reflexivity|]. intro E. apply (f_equal n_blocks) in E. discriminate. Qed.

(** With a closing parenthesis in a name, one group is shown as two. *)
Definition ex_groups (l : list PhysicalGroup) : MshSpec := set_physical_groups l spec_default.
Theorem C62_refuted : exists s s' t, py_repr (OSpec s) = Some t /\ py_repr (OSpec s') = Some t /\ outline s <> outline s'.
Proof.
  exists (ex_groups [ {| pg_dim := 0; pg_tag := 1; pg_name := str "a), PhysicalGroup(dim=0, tag=2, name=b" |} ]),
    (ex_groups [ {| pg_dim := 0; pg_tag := 1; pg_name := str "a" |}; {| pg_dim := 0; pg_tag := 2; pg_name := str "b" |} ]).
  eexists. split; [vm_compute; reflexivity|]. split; [vm_compute; reflexivity|].
  intro E. apply (f_equal (fun o => List.length (snd (fst o)))) in E. discriminate.
Qed.
Print Assumptions C62_refuted.
