(** C27, C28, C29: validate_spec. *)

From Verif Require Import Spec.Valid Model.Validate Model.Save Tests.Examples Proofs.ValidateP Proofs.SaveP.

(** C27: accepted if and only if valid, rejected with CorruptData otherwise. *)
Theorem C27_iff : forall s,
  Forall countable (e_blocks (elements s)) -> Forall addable (n_blocks (nodes s)) ->
  (valid s -> validate_spec s = Ok tt) /\ (~ valid s -> exists m, validate_spec s = Throw (CorruptData m)).
Proof.
  intros s C A.
  assert (T : typed s) by (eapply Forall_impl; [|exact C]; intros b [H _]; lia).
  assert (G : valid s <-> validate_spec s = Ok tt).
  { rewrite validate_ok by exact T. split.
    - intros [H N E]. split; [exact H|]. split; apply Forall_and; assumption.
    - intros (H & N & E). apply Forall_and_inv in N, E. constructor; tauto. }
  split; [apply G|]. intro V. destruct (check_validate s) as [E|[E|(u & E)]]; [tauto|exact E|].
  apply validate_undef in E; [|exact T]. exfalso.
  destruct E as [(_ & _ & l & b & r & E & _ & _ & _ & H)|(_ & _ & _ & l & b & r & E & _ & H)]; apply H.
  - revert b E H. intros b E _. rewrite Forall_forall in A. apply A. rewrite E. apply in_elt.
  - rewrite Forall_forall in C. apply C. rewrite E. apply in_elt.
Qed.
Print Assumptions C27_iff.

(** Nothing else is thrown, whatever the spec. *)
Theorem C27_only : forall s e, validate_spec s = Throw e -> exists m, e = CorruptData m.
Proof.
  intros s e E. destruct (check_validate s) as [H|[(m & H)|(u & H)]]; rewrite H in E; try congruence. exists m. congruence.
Qed.
Print Assumptions C27_only.

Example C27_ex : valid (ex_spec (str "4.1") true).
Proof.
  split.
  - split; vm_compute; congruence.
  - ex_forall; (split; [reflexivity| |reflexivity]); ex_forall; vm_compute; split; congruence.
  - apply Forall_cons; [|apply Forall_cons; [|apply Forall_nil]].
    + exists [(1, [7; 1; 2]); (2, [7; 2; 3])]. split; [reflexivity|].
      repeat (apply Forall_cons || apply Forall_nil || split); vm_compute; congruence.
    + exists [(3, [1; 2])]. split; [reflexivity|].
      repeat (apply Forall_cons || apply Forall_nil || split); vm_compute; congruence.
Qed.

Example C27_ex_hyps : Forall countable (e_blocks (elements (ex_spec (str "4.1") true))) /\
  Forall addable (n_blocks (nodes (ex_spec (str "4.1") true))).
Proof. split; ex_forall; vm_compute; try split; congruence. Qed.

(** The same spec with bounds that exclude a referenced node. *)
Definition bad_spec : MshSpec :=
  let s := ex_spec (str "4.1") true in
  {| mesh_format := mesh_format s;
     nodes := {| n_num_blocks := 0; n_num_nodes := 0; n_min := 2; n_max := 7; n_blocks := [] |};
     elements := elements s; entities := entities s; physical_groups := physical_groups s;
     node_data := node_data s; element_data := element_data s;
     element_node_data := element_node_data s; ns_version := ns_version s; curves := curves s;
     patches := patches s |}.

Example C27_bad_ex : validate_spec bad_spec = Throw (CorruptData (str "Node tag in element < min node tag.")).
Proof. reflexivity. Qed.

(** C28 is false: the empty block of an otherwise valid spec. *)
Definition with_blocks (ns : list NodeBlock) (es : list ElementBlock) (v : bytes) (a : bool) : MshSpec :=
  {| mesh_format := {| version := v; file_type := if a then 0 else 1; data_size := 8 |};
     nodes := {| n_num_blocks := zlen ns; n_num_nodes := 1; n_min := 1; n_max := 9; n_blocks := ns |};
     elements := {| e_num_blocks := zlen es; e_num_elements := 1; e_min := 1; e_max := 9; e_blocks := es |};
     entities := {| points := []; curves_e := []; surfaces_e := []; volumes_e := [] |};
     physical_groups := []; node_data := []; element_data := []; element_node_data := [];
     ns_version := []; curves := []; patches := [] |}.

Definition empty_block : ElementBlock := {| eb_dim := 1; eb_tag := 1; eb_type := 1; eb_num := 0; eb_data := [] |}.

Theorem C28_refuted : exists s, typed s /\ validate_spec s = Undef DivByZero.
Proof.
  exists (with_blocks [] [empty_block] (str "4.1") true). split; [|reflexivity].
  ex_forall. vm_compute. congruence.
Qed.
Print Assumptions C28_refuted.

(** More elements than data. *)
Theorem C28_refuted_short : exists s, typed s /\ validate_spec s = Undef DivByZero /\
  Forall (fun b => 0 < eb_num b) (e_blocks (elements s)).
Proof.
  exists (with_blocks [] [{| eb_dim := 1; eb_tag := 1; eb_type := 1; eb_num := 4; eb_data := [1; 2; 3] |}] (str "4.1") true).
  split; [|split; [reflexivity|]]; ex_forall; vm_compute; congruence.
Qed.
Print Assumptions C28_refuted_short.

(** Exactly when it has undefined behaviour, and which; it neither hangs nor aborts. *)
Theorem C28_exact : forall s, typed s ->
  (validate_spec s = Undef DivByZero <-> divides_by_zero s) /\
  (validate_spec s = Undef SignedOverflow <-> overflows s) /\
  (~ divides_by_zero s -> ~ overflows s -> validate_spec s = Ok tt \/ exists m, validate_spec s = Throw (CorruptData m)).
Proof.
  intros s T. split; [|split].
  - rewrite validate_undef by exact T. split; [intros [[H _]|[_ H]]; [discriminate|exact H]|auto].
  - rewrite validate_undef by exact T. split; [intros [[_ H]|[H _]]; [exact H|discriminate]|auto].
  - intros H1 H2. destruct (check_validate s) as [E|[E|(u & E)]]; auto.
    apply validate_undef in E; [|exact T]. tauto.
Qed.
Print Assumptions C28_exact.

(** A parametric block of dimension INT_MAX. *)
Example C28_overflow_ex : overflows (with_blocks
  [{| nb_dim := INT_MAX; nb_tag := 1; nb_parametric := 1; nb_num := 1; nb_tags := [1]; nb_data := [] |}] [] (str "4.1") true).
Proof.
  split; [split; vm_compute; congruence|]. eexists [], _, []. split; [reflexivity|]. split; [constructor|].
  split; [reflexivity|]. split; [ex_forall; vm_compute; split; congruence|]. intro H. specialize (H eq_refl).
  revert H. vm_compute. congruence.
Qed.

(** C29 is false in every encoding: parametric and of a negative dimension. *)
Definition negative_dim : NodeBlock :=
  {| nb_dim := -1; nb_tag := 1; nb_parametric := 2; nb_num := 1; nb_tags := [1]; nb_data := [0; 0] |}.

Theorem C29_refuted : forall c v a, v = str "4.1" \/ v = str "2.2" ->
  exists s, version (mesh_format s) = v /\ file_type (mesh_format s) = (if a : bool then 0 else 1) /\ typed s /\ supported s /\
    validate_spec s = Ok tt /\ snd (save_msh c s) = Undef OutOfBounds.
Proof.
  intros c v a V. exists (with_blocks [negative_dim] [] v a).
  split; [reflexivity|]. split; [reflexivity|]. split; [constructor|]. split; [split; [exact V|constructor]|].
  split; [reflexivity|]. destruct V as [-> | ->]; destruct a; reflexivity.
Qed.
Print Assumptions C29_refuted.

(** ... and with fewer entries per element than its type has nodes. *)
Theorem C29_refuted_width : forall c, exists s, typed s /\ supported s /\ validate_spec s = Ok tt /\
  Forall (fun b => nb_parametric b = 0) (n_blocks (nodes s)) /\ snd (save_msh c s) = Undef OutOfBounds.
Proof.
  intro c. exists (with_blocks [] [{| eb_dim := 2; eb_tag := 1; eb_type := 2; eb_num := 1; eb_data := [1; 2; 3] |}] (str "4.1") true).
  split; [ex_forall; vm_compute; congruence|]. split; [split; [left; reflexivity|ex_forall; discriminate]|].
  split; [reflexivity|]. split; [constructor|]. reflexivity.
Qed.
Print Assumptions C29_refuted_width.

(** True with what is not checked as a side condition, for every version and
    file type, with or without asserts. *)
Theorem C29_saved : forall c s, validate_spec s = Ok tt -> typed s -> unchecked c s ->
  (supported s -> snd (save_msh c s) = Ok tt) /\
  (~ supported s -> snd (save_msh c s) = Ok tt \/ exists e, snd (save_msh c s) = Throw e).
Proof.
  intros c s V T U. apply validate_ok in V; [|exact T]. destruct V as ([H1 H2 _ _] & N & E).
  assert (G : ends (~ supported s) (save_msh c s)).
  { apply save_ends; [| |exact U]; intros _; (split; [assumption|]).
    - eapply Forall_impl; [|exact N]. intros b [Hb _]. exact Hb.
    - exact T. }
  destruct G as [G|(S & G)]; split; tauto.
Qed.
Print Assumptions C29_saved.

Example C29_ex : forall v a, unchecked c_release (ex_spec v a) /\ typed (ex_spec v a) /\ validate_spec (ex_spec v a) = Ok tt.
Proof.
  intros v a. split; [|split; [ex_forall; vm_compute; congruence|reflexivity]]. split.
  - ex_forall; (split; [vm_compute; intros; split; congruence|split; reflexivity]).
  - ex_forall; (split; [reflexivity|intros n E; vm_compute in E; injection E as <-; vm_compute; congruence]).
  - intros _. ex_forall; repeat split; vm_compute; congruence.
  - intros _. ex_forall; repeat split; vm_compute; congruence.
Qed.
