(** C50-C52: the program msh_inspect. *)

From Verif Require Import Model.Inspect Model.Validate Spec.Report Spec.Files22 Spec.Consistent Spec.Rounding Spec.Mesh Tests.Examples Tests.ExamplesInspect
  Proofs.BytesP Proofs.LoadedP Proofs.RegroupP Proofs.ShowP Proofs.RoundP Proofs.Rt41 Proofs.Final Proofs.IntShowP Proofs.InspectP.

(** C50: after loading any bytes (as anything but version 2.2), printing either
    goes to its end or leaves its vectors, and the latter exactly if a block
    has fewer numbers than the program takes it to have. *)
Theorem C50_exactly : forall c b s, load_msh c b = Ok s -> version (mesh_format s) <> str "2.2" ->
  ((exists t, inspect s = (t, Ok tt)) <->
   Forall node_block_readable (n_blocks (nodes s)) /\ Forall element_block_readable (e_blocks (elements s))) /\
  (exists t r, inspect s = (t, r) /\ (r = Ok tt \/ exists u, r = Undef u)).
Proof.
  intros c b s L V. pose proof (loaded_not22 c b s L V) as D. pose proof (sized_loaded s D) as S.
  split; [exact (inspect_fine s S (bounded_loaded s D))|exact (inspect_ends s S)].
Qed.
Print Assumptions C50_exactly.

Lemma sized22 : forall c b s, load_msh c b = Ok s -> sections_22 c b -> version (mesh_format s) = str "2.2" -> sized s.
Proof.
  intros c b s L H V. destruct (consistent22 c b s L H V) as (K & _). destruct (loaded_data c b s L) as (D1 & D2 & _).
  split; try apply K; try assumption.
  - eapply Forall_impl; [|apply K]. intros x N. apply N.
  - eapply Forall_impl; [|apply K]. intros x N. split; [apply (eb22_num _ N)|]. destruct (eb22_data _ N) as (n & G & _). eauto.
Qed.

(** 2.2 files, whose nodes have three coordinates, are printed to the end. *)
Theorem C50_22 : forall c b s, load_msh c b = Ok s -> sections_22 c b -> version (mesh_format s) = str "2.2" ->
  exists t, inspect s = (t, Ok tt).
Proof.
  intros c b s L H V. pose proof (sized22 c b s L H V) as S. destruct (consistent22 c b s L H V) as (K & _).
  apply inspect_readable; [exact S| |].
  - eapply Forall_impl; [|apply K]. intros x N. right. rewrite (nb22_par _ N).
    change ((3 + 0) mod 2 ^ 64) with 3. rewrite (nb22_data _ N). lia.
  - eapply Forall_impl; [|apply K]. intros x N. destruct (eb22_data _ N) as (n & G & E). exists n. rewrite E. split; [exact G|lia].
Qed.
Print Assumptions C50_22.

(** It is false that any loaded mesh can be inspected: a node of a parametric
    block of points has three numbers, four are taken. *)
Theorem C50_points : forall c b s x, load_msh c b = Ok s -> version (mesh_format s) <> str "2.2" ->
  In x (n_blocks (nodes s)) -> nb_dim x = 0 -> nb_parametric x = 1 -> 0 < nb_num x < 2 ^ 62 ->
  exists t u, inspect s = (t, Undef u).
Proof.
  intros c b s x L V I D P N. destruct (C50_exactly c b s L V) as (E & (t & r & R & [->|(u & ->)])); [|eauto].
  exfalso. destruct (proj1 E (ex_intro _ t R)) as (F & _). rewrite Forall_forall in F.
  pose proof (ld_node_all _ (loaded_not22 c b s L V)) as A. rewrite Forall_forall in A.
  specialize (F x I). specialize (A x I). destruct F as [F|(_ & F)]; [lia|].
  rewrite (nl_data _ A), D, P in F. cbn [Z.eqb Pos.eqb] in F. change ((3 + 1) mod 2 ^ 64) with 4 in F.
  rewrite Z.mod_small in F by lia. lia.
Qed.
Print Assumptions C50_points.

Theorem C50_refuted : exists c b s t, load_msh c b = Ok s /\ validate_spec s = Ok tt /\ inspect s = (t, Undef OutOfBounds).
Proof.
  exists c_release, on_point. eexists. eexists. split; [vm_compute; reflexivity|]. split; vm_compute; reflexivity.
Qed.
Print Assumptions C50_refuted.

Example C50_ex : exists s, load_msh c_release plain_file = Ok s /\ version (mesh_format s) <> str "2.2" /\
  Forall node_block_readable (n_blocks (nodes s)) /\ map nb_parametric (n_blocks (nodes s)) = [1; 0] /\
  Forall element_block_readable (e_blocks (elements s)) /\ e_blocks (elements s) <> [].
Proof.
  eexists. split; [vm_compute; reflexivity|]. split; [discriminate|]. split; [|split; [reflexivity|split; [|discriminate]]].
  - constructor; [right; vm_compute; split; [reflexivity|discriminate]|].
    constructor; [right; vm_compute; split; [reflexivity|discriminate]|constructor].
  - constructor; [|constructor]. exists 3. vm_compute. split; [reflexivity|discriminate].
Qed.

(** C51: what is printed is the report, if no block needs more than the three
    coordinates and, on curves, one parameter, and no integer tag has more than
    six digits. *)
Theorem C51_report : forall c b s, load_msh c b = Ok s ->
  version (mesh_format s) <> str "2.2" \/ sections_22 c b ->
  Forall node_block_plain (n_blocks (nodes s)) -> Forall element_block_plain (e_blocks (elements s)) ->
  Forall tags_plain (node_data s) -> Forall tags_plain (element_data s) ->
  inspect s = (report s, Ok tt).
Proof.
  intros c b s L V HN HE TN TE. apply inspect_report; try assumption.
  destruct V as [V|H]; [apply sized_loaded, (loaded_not22 c b s L V)|].
  destruct (bytes_eqb (version (mesh_format s)) (str "2.2")) eqn:V.
  - apply bytes_eqb_eq in V. exact (sized22 c b s L H V).
  - apply bytes_eqb_neq in V. apply sized_loaded, (loaded_not22 c b s L V).
Qed.
Print Assumptions C51_report.

(** Integers of up to six digits look the same as doubles. *)
Theorem C51_integers : forall t, -1000000 < t < 1000000 -> show_double (dbl_of_int t) = show_Z t.
Proof. exact show_double_int. Qed.
Print Assumptions C51_integers.

Example C51_ex : exists s, load_msh c_release plain_file = Ok s /\
  inspect s = (lines (map str plain_report), Ok tt).
Proof.
  destruct (load_msh c_release plain_file) as [s| | | |] eqn:L; try (vm_compute in L; discriminate L).
  exists s. split; [reflexivity|]. pose proof L as L0. vm_compute in L. injection L as <-.
  rewrite (C51_report _ _ _ L0); [vm_compute; reflexivity|left; discriminate|..].
  - constructor; [split; [right; split; reflexivity|split; vm_compute; reflexivity]|].
    constructor; [split; [left; reflexivity|split; vm_compute; reflexivity]|constructor].
  - constructor; [|constructor]. split; [exists 3; split; vm_compute; reflexivity|vm_compute; reflexivity].
  - constructor; [|constructor]. unfold tags_plain. cbn [d_header int_tags].
    constructor; [lia|]. constructor; [lia|]. constructor; [lia|constructor].
  - constructor.
Qed.

(** False in general: the second node of a surface gets the wrong numbers, and
    1000000 becomes 1e+06. *)
Theorem C51_refuted :
  (exists s t, load_msh c_release on_surface = Ok s /\ validate_spec s = Ok tt /\ inspect s = (t, Ok tt) /\ t <> report s) /\
  (exists s t, load_msh c_release late_step = Ok s /\ inspect s = (t, Ok tt) /\ t <> report s).
Proof.
  split; eexists; eexists.
  - split; [vm_compute; reflexivity|]. split; [vm_compute; reflexivity|]. split; [vm_compute; reflexivity|].
    intro E. apply (f_equal (@List.length _)) in E. vm_compute in E. discriminate E.
  - split; [vm_compute; reflexivity|]. split; [vm_compute; reflexivity|].
    intro E. apply (f_equal (@List.length _)) in E. vm_compute in E. discriminate E.
Qed.
Print Assumptions C51_refuted.

(** C52: the program as a whole. *)
Theorem C52_usage : forall c cap st args, List.length args <> 1%nat -> msh_inspect c cap st args = (st, [], Ok 1).
Proof. intros c cap st [|x [|y l]] H; [reflexivity| |reflexivity]. contradiction H. reflexivity. Qed.
Print Assumptions C52_usage.

(** A file that cannot be loaded: no output, no file written. *)
Theorem C52_unloadable : forall c cap st name st' text r, msh_inspect c cap st [name] = (st', text, r) ->
  (forall s, load_file c st name <> Ok s) -> st' = st /\ text = [] /\ forall z, r <> Ok z.
Proof.
  intros c cap st name st' text r H N. unfold msh_inspect in H. destruct (load_file c st name) as [s| | | |] eqn:E;
    [contradiction (N s); reflexivity|..]; injection H as <- <- <-; repeat split; discriminate.
Qed.
Print Assumptions C52_unloadable.

(** Status 0: everything was printed and the mesh is in tmp.msh; no other file
    was touched. *)
Theorem C52_done : forall c cap st args st' text z, msh_inspect c cap st args = (st', text, Ok z) ->
  z = 1 /\ List.length args <> 1%nat \/
  z = 0 /\ exists name b s w, args = [name] /\ files st name = Some b /\ load_msh c b = Ok s /\ inspect s = (text, Ok tt) /\
    save_msh c s = (w, Ok tt) /\ files st' (str "tmp.msh") = Some (stored cap w) /\
    (forall other, other <> str "tmp.msh" -> files st' other = files st other).
Proof.
  intros c cap st args st' text z H. unfold msh_inspect in H.
  destruct args as [|name [|y l]]; [injection H as <- <- <-; left; split; [reflexivity|discriminate]| |
    injection H as <- <- <-; left; split; [reflexivity|discriminate]].
  right. unfold load_file in H. destruct (files st name) as [b|] eqn:F; [|discriminate].
  destruct (load_msh c b) as [s| | | |] eqn:L; try discriminate.
  destruct (inspect s) as [t [[]| | | |]] eqn:I; try discriminate.
  unfold save_file in H. destruct (writable st (str "tmp.msh")); [|discriminate].
  destruct (save_msh c s) as [w o] eqn:W. destruct o as [[]| | | |]; try discriminate. cbn [obind] in H.
  injection H as <- <- <-. split; [reflexivity|]. exists name, b, s, w. cbn [files]. unfold upd.
  rewrite bytes_eqb_refl. repeat split; auto. intros other O. apply bytes_eqb_neq in O. rewrite O. reflexivity.
Qed.
Print Assumptions C52_done.

(** In any other case, and if something goes wrong before saving, nothing but
    tmp.msh changes. *)
Theorem C52_only : forall c cap st args st' text r, msh_inspect c cap st args = (st', text, r) ->
  forall other, other <> str "tmp.msh" -> files st' other = files st other.
Proof.
  intros c cap st args st' text r H other O. unfold msh_inspect in H.
  destruct args as [|name [|y l]]; [injection H as <- _ _; reflexivity| |injection H as <- _ _; reflexivity].
  destruct (load_file c st name) as [s| | | |]; try (injection H as <- _ _; reflexivity).
  destruct (inspect s) as [t [[]| | | |]]; try (injection H as <- _ _; reflexivity).
  unfold save_file in H. destruct (writable st (str "tmp.msh")); [|injection H as <- _ _; reflexivity].
  destruct (save_msh c s) as [w o]. injection H as <- _ _. cbn [files]. unfold upd.
  apply bytes_eqb_neq in O. rewrite O. reflexivity.
Qed.
Print Assumptions C52_only.

(** A consistent 4.1 mesh whose blocks are plain: the report is printed and
    tmp.msh loads as the same mesh, up to six digits in a text file. *)
Theorem C52_kept : exists r : dbl -> dbl, (forall x, size_ok x -> finite x -> six_digits_of x (r x)) /\
  forall c a st name b s, files st name = Some b -> load_msh c b = Ok s -> consistent41 c a s ->
    Forall node_block_plain (n_blocks (nodes s)) -> Forall element_block_plain (e_blocks (elements s)) ->
    Forall tags_plain (node_data s) -> Forall tags_plain (element_data s) -> writable st (str "tmp.msh") = true ->
    exists st', msh_inspect c None st [name] = (st', report s, Ok 0) /\
      load_file c st' (str "tmp.msh") = Ok (via41 a r (nanospline c) s).
Proof.
  exists ascii_round. split; [exact ascii_round_six|].
  intros c a st name b s F L K HN HE TN TE W.
  destruct (roundtrip41 c a s K) as (w & W1 & W2).
  assert (V : version (mesh_format s) <> str "2.2") by (rewrite (ok41_version _ _ _ K); discriminate).
  eexists. unfold msh_inspect, load_file, save_file. rewrite F, L, (C51_report c b s L) by (try assumption; left; exact V).
  rewrite W, W1. split; [reflexivity|]. cbn [files]. unfold upd. rewrite bytes_eqb_refl. exact W2.
Qed.
Print Assumptions C52_kept.

Example C52_ex : exists s, load_msh c_release plain_file = Ok s /\ consistent41 c_release true s /\
  Forall node_block_plain (n_blocks (nodes s)) /\ Forall element_block_plain (e_blocks (elements s)) /\
  Forall tags_plain (node_data s) /\ Forall tags_plain (element_data s) /\ node_data s <> [].
Proof.
  eexists. split; [vm_compute; reflexivity|]. split.
  { split; [reflexivity|reflexivity|reflexivity| | |].
    - split; cbn [physical_groups nodes elements node_data element_data element_node_data].
      + ex_ok.
      + ex_ok.
      + intros _. split; cbn [n_num_blocks n_blocks n_min n_max]; ex_ok.
      + ex_ok.
      + intros _. split; cbn [e_num_blocks e_blocks e_min e_max]; ex_ok.
        all: try (exists 3; ex_ok).
      + ex_forall; split; cbn; ex_ok; exists 12, 2, []; split; [reflexivity|ex_ok].
      + constructor.
      + constructor.
    - split; cbn; ex_ok.
    - intros _. split; cbn; ex_ok. }
  split; [|split; [|split; [|split; [constructor|discriminate]]]].
  - constructor; [split; [right; split; reflexivity|split; vm_compute; reflexivity]|].
    constructor; [split; [left; reflexivity|split; vm_compute; reflexivity]|constructor].
  - constructor; [|constructor]. split; [exists 3; split; vm_compute; reflexivity|vm_compute; reflexivity].
  - constructor; [|constructor]. unfold tags_plain. cbn [d_header int_tags].
    constructor; [lia|]. constructor; [lia|]. constructor; [lia|constructor].
Qed.
