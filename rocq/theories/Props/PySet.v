(** C79: assignments to attributes of Python objects. *)

From Verif Require Import Model.LoadMsh Spec.PySet Proofs.PySetP Proofs.PyCallsP.

(** An assignment succeeds exactly if the attribute exists and can hold the value; then that
    attribute has the value and nothing else has changed. *)
Theorem C79_assign : forall o name v,
  (accepts o name v <-> exists o', set_attr o name v = Some o') /\
  forall o', set_attr o name v = Some o' -> assigned o name v o'.
Proof. intros o name v. split; [exact (set_accepts o name v)|exact (set_assigned o name v)]. Qed.
Print Assumptions C79_assign.

(** What is assigned is what is read afterwards. *)
Theorem C79_read : forall o name v o', set_attr o name v = Some o' ->
  get_attr o' name = Some v /\ forall other, other <> name -> get_attr o' other = get_attr o other.
Proof.
  intros o name v o' E. split; [exact (get_set o name v o' E)|]. intros other N. exact (get_other o name other v o' E N).
Qed.
Print Assumptions C79_read.

(** Assigning to an attribute of an attribute changes that one, in place. *)
Theorem C79_nested : forall o m x ms name v o', get_attr o m = Some (VObj x) ->
  (set_path o (m :: ms) name v = Some o' <-> exists x', set_path x ms name v = Some x' /\ assigned o m (VObj x') o').
Proof. exact nested. Qed.
Print Assumptions C79_nested.

(** There is a constructor for every class; it makes an object whose members are zero and
    empty, except for the version and the data size of a format. *)
Theorem C79_new : (forall o, exists o', new (class_name o) = Some o') /\
  forall cls o, new cls = Some o -> class_name o = cls /\ fresh o /\ plain_spec o.
Proof. split; [intro o; destruct (new_class o) as (o' & N & _); eauto|exact new_fresh]. Qed.
Print Assumptions C79_new.

(** Python code can make every object whose members hold values of their types, except specs
    with splines. *)
Theorem C79_built : forall o, typed o -> (made o <-> plain_spec o).
Proof. intros o T. split; [exact (made_plain o)|exact (built o T)]. Qed.
Print Assumptions C79_built.

(** Entities.empty() *)
Theorem C79_empty : forall e, entities_empty e = true <-> e = ents_default.
Proof.
  intro e. split; [|intros ->; reflexivity]. destruct e as [[|p ps] [|a l1] [|b l2] [|d l3]]; try discriminate. reflexivity.
Qed.
Print Assumptions C79_empty.

(** ** Examples *)

Definition ex_block : NodeBlock :=
  {| nb_dim := 2; nb_tag := 7; nb_parametric := 0; nb_num := 1; nb_tags := [5]; nb_data := [0; 1; 2] |}.
Definition ex_py : MshSpec :=
  {| mesh_format := mf_default; nodes := {| n_num_blocks := 1; n_num_nodes := 1; n_min := 5; n_max := 5; n_blocks := [ex_block] |};
     elements := e_default; entities := ents_default; physical_groups := [{| pg_dim := 2; pg_tag := 1; pg_name := str "skin" |}];
     node_data := []; element_data := []; element_node_data := []; ns_version := str "1.0"; curves := []; patches := [] |}.

(** spec.nodes.min_node_tag = 4, and -4, which is not a size_t. *)
Example ex_set : exists s, set_path (OSpec ex_py) ["nodes"%string] "min_node_tag" (VInt 4) = Some (OSpec s) /\
  n_min (nodes s) = 4 /\ n_blocks (nodes s) = [ex_block] /\
  set_path (OSpec ex_py) ["nodes"%string] "min_node_tag" (VInt (-4)) = None /\
  set_path (OSpec ex_py) ["nodes"%string] "min_tag" (VInt 4) = None.
Proof. eexists. split; [reflexivity|]. auto. Qed.

Example C79_hyp_accepts : accepts (OFormat mf_default) "version" (VStr (str "2.2")).
Proof. exists KStr. split; [left; reflexivity|]. apply ok_utf8_iff. reflexivity. Qed.

Ltac ex_typed :=
  apply typed_intro;
  [intros name v H; cbn [attributes box In] in H; repeat (destruct H as [H|H]; [injection H as <- <-; eexists; split;
     [cbn [class_name members String.eqb Ascii.eqb Bool.eqb orb In]; auto 12|]|]); try destruct H;
     cbn [holds]; try exact Logic.I; try (apply ok_utf8_iff; reflexivity);
     try (repeat constructor; vm_compute; intuition discriminate)
  |intros name v x H; cbn [attributes box In] in H; repeat (destruct H as [H|H]; [injection H as <- <-; cbn [objects map In];
     let X := fresh "X" in intro X; repeat (destruct X as [<-|X]); try destruct X|]); try destruct H].

Example C79_hyp_built : typed (OSpec ex_py) /\ plain_spec (OSpec ex_py).
Proof. split; [|split; [reflexivity|split; reflexivity]]. ex_typed; ex_typed. ex_typed. Qed.
