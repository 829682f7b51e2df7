(** C45: the bytes of a saved file are those of the format description. *)

From Verif Require Import Spec.Format Spec.Rounding Model.Save Model.LoadMsh Tests.Examples Tests.ExamplesRt22 Proofs.FormatP
  Proofs.Final Proofs.Final22.

(** The file the format description gives for a spec. *)
Definition msh_file (c : cfg) (s : MshSpec) : bytes := frames (section_names c s) (section_bodies msh c s).

Theorem C45_bytes41 : forall c a s, consistent41 c a s -> (a = true -> no_empty_lines s) ->
  save_msh c s = (msh_file c s, Ok tt).
Proof. exact file41. Qed.
Print Assumptions C45_bytes41.

Theorem C45_bytes22 : forall c a s, consistent22 c a s -> (a = true -> no_empty_lines s) ->
  save_msh c s = (msh_file c s, Ok tt).
Proof. exact file22. Qed.
Print Assumptions C45_bytes22.

(** And load_msh reads that file as the spec. *)
Theorem C45_loads41 : forall a, exists r : dbl -> dbl,
  (forall x, size_ok x -> finite x -> six_digits_of x (r x)) /\
  forall c s, consistent41 c a s -> (a = true -> no_empty_lines s) ->
    load_msh c (msh_file c s) = Ok (via41 a r (nanospline c) s).
Proof.
  intro a. destruct (rt41 a) as (r & R & T). exists r. split; [exact R|]. intros c s H W.
  destruct (T c s H) as (b & E1 & E2). rewrite (file41 c a s H W) in E1. injection E1 as <-. exact E2.
Qed.
Print Assumptions C45_loads41.

Theorem C45_loads22 : forall a, exists r : dbl -> dbl,
  (forall x, size_ok x -> finite x -> six_digits_of x (r x)) /\
  forall c s, consistent22 c a s -> (a = true -> no_empty_lines s) ->
    exists s', load_msh c (msh_file c s) = Ok s' /\ kept22 c a r s s'.
Proof.
  intro a. destruct (rt22 a) as (r & R & T). exists r. split; [exact R|]. intros c s H W.
  destruct (T c s H) as (b & s' & E1 & E2 & K). rewrite (file22 c a s H W) in E1. injection E1 as <-.
  exists s'. split; [exact E2|exact K].
Qed.
Print Assumptions C45_loads22.

Lemma ex_no_empty_lines : forall v a, no_empty_lines (ex_spec v a).
Proof.
  intros v a. split.
  - intros _. cbn. ex_forall; cbn; lia.
  - cbn. repeat constructor; discriminate.
Qed.

Example C45_hyp : forall nd a, let c := {| ndebug := nd; nanospline := true; mem := 1000000 |} in
  consistent41 c a (ex_spec (str "4.1") a) /\ consistent22 c a (ex_spec (str "2.2") a) /\
  no_empty_lines (ex_spec (str "4.1") a) /\ no_empty_lines (ex_spec (str "2.2") a).
Proof.
  intros nd a. split; [apply ex_spec_41|]. split; [apply ex_spec_22|]. split; apply ex_no_empty_lines.
Qed.

(** The specification spelled out on an example. *)
Example C45_text : encode true (nodes_records
    {| n_num_blocks := 2; n_num_nodes := 3; n_min := 1; n_max := 7;
       n_blocks := [ {| nb_dim := 2; nb_tag := 1; nb_parametric := 1; nb_num := 1; nb_tags := [7]; nb_data := [0; d15; 0; 0; 0] |};
                     {| nb_dim := 1; nb_tag := 5; nb_parametric := 0; nb_num := 2; nb_tags := [1; 2]; nb_data := [0; 0; dm2; 0; 0; 0] |} ] |}) =
  str "2 3 1 7" ++ nl ++ str "2 1 1 1" ++ nl ++ str "7" ++ nl ++ str "0 1.5 0 0 0" ++ nl ++
  str "1 5 0 2" ++ nl ++ str "1" ++ nl ++ str "2" ++ nl ++ str "0 0 -2" ++ nl ++ str "0 0 0" ++ nl.
Proof. vm_compute. reflexivity. Qed.

Example C45_text22 : elements_section (str "2.2") true ex_elements =
  str "3" ++ nl ++ str "1 2 1 1 7 1 2" ++ nl ++ str "2 2 1 1 7 2 3" ++ nl ++ str "3 1 1 5 1 2" ++ nl.
Proof. reflexivity. Qed.

Example C45_raw : encode false (entities_records {| points := [ {| pe_tag := 258; pe_x := d15; pe_y := 0; pe_z := 0; pe_phys := [-1] |} ];
    curves_e := []; surfaces_e := []; volumes_e := [] |}) =
  [x01;x00;x00;x00;x00;x00;x00;x00; x00;x00;x00;x00;x00;x00;x00;x00;
   x00;x00;x00;x00;x00;x00;x00;x00; x00;x00;x00;x00;x00;x00;x00;x00;
   x02;x01;x00;x00; x00;x00;x00;x00;x00;x00;xf8;x3f; x00;x00;x00;x00;x00;x00;x00;x00;
   x00;x00;x00;x00;x00;x00;x00;x00; x01;x00;x00;x00;x00;x00;x00;x00; xff;xff;xff;xff].
Proof. vm_compute. reflexivity. Qed.
