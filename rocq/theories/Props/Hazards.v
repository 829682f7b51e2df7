(** C54: how loading and saving can fail. *)

From Verif Require Import Model.Fs Spec.Hazards Tests.Examples Proofs.BytesP Proofs.Trace Proofs.HazardsP.
From Verif Require Props.Loaded.

(** Undefined behaviour of load_msh comes from a section that is hazardous
    under the header in force, or from the regrouping of 2.2 meshes. *)
Theorem C54_undefined : forall c b u, load_msh c b = Undef u ->
  (exists w spec s, meets c b (str w) spec s /\ hazard c (mesh_format spec) w u) \/
  exists raw, ends_with c b raw /\ v22 (mesh_format raw) /\ (u = OutOfBounds \/ u = EmptyBack /\ ndebug c = true).
Proof. intros c b u H. pose proof (load_go c b) as G. rewrite H in G. exact G. Qed.
Print Assumptions C54_undefined.

(** The same for exceptions. *)
Theorem C54_exception : forall c b e, load_msh c b = Throw e ->
  (exists w spec s, meets c b (str w) spec s /\ refusal c (mesh_format spec) w e) \/
  exists raw, ends_with c b raw /\ v22 (mesh_format raw) /\ memory e.
Proof. intros c b e H. pose proof (load_go c b) as G. rewrite H in G. exact G. Qed.
Print Assumptions C54_exception.

(** The exceptions a caller has to expect, the kinds of undefined behaviour,
    and no abort in a release build. *)
Theorem C54_load : forall c b,
  (forall e, load_msh c b = Throw e -> (exists m, e = UnsupportedFeature m \/ e = InvalidFormat m) \/ memory e) /\
  (forall u, load_msh c b = Undef u -> In u [OutOfBounds; Indeterminate; SignedOverflow; EmptyBack]) /\
  (load_msh c b = Abort -> ndebug c = false).
Proof.
  intros c b. split; [|split].
  - intros e H. destruct (C54_exception c b e H) as [(w & spec & s & _ & R)|(raw & _ & _ & R)]; [|right; exact R].
    destruct R; try (right; assumption); left; eexists; (left; reflexivity) || (right; reflexivity).
  - intros u H. destruct (C54_undefined c b u H) as [(w & spec & s & _ & R)|(raw & _ & _ & [->|[-> _]])]; cbn [In]; auto.
    destruct R; cbn [In]; auto.
  - intro H. pose proof (load_go c b) as G. rewrite H in G. exact G.
Qed.
Print Assumptions C54_load.

(** Files that are 4.1 binary throughout: nothing is accessed out of bounds. *)
Definition binary41 (c : cfg) (b : bytes) : Prop :=
  (forall w spec s, meets c b w spec s -> w <> str "$MeshFormat" -> version (mesh_format spec) = str "4.1" /\ 0 < file_type (mesh_format spec)) /\
  (forall raw, ends_with c b raw -> version (mesh_format raw) <> str "2.2").

Theorem C54_binary41 : forall c b, binary41 c b -> load_msh c b <> Undef OutOfBounds /\ load_msh c b <> Undef EmptyBack.
Proof.
  intros c b (A & B).
  assert (G : forall u, load_msh c b = Undef u -> u = SignedOverflow \/ u = Indeterminate).
  { intros u H. destruct (C54_undefined c b u H) as [(w & spec & s & Mt & R)|(raw & EW & V & _)].
    - assert (N : str w <> str "$MeshFormat").
      { destruct R; try discriminate; repeat match goal with IN : In _ _ |- _ => destruct IN as [<-|IN]; [discriminate|] | IN : In _ [] |- _ => destruct IN end. }
      destruct (A _ _ _ Mt N) as (V & F). destruct R; auto; unfold v22, text in *; try (rewrite V in *; discriminate); try lia.
    - exfalso. exact (B raw EW V). }
  split; intro H; destruct (G _ H); discriminate.
Qed.
Print Assumptions C54_binary41.

Example C54_binary41_ex : binary41 c_release Props.Loaded.ex_cut.
Proof.
  set (ok := fun name spec => bytes_eqb name (str "$MeshFormat") || bytes_eqb (version (mesh_format spec)) (str "4.1") && (0 <? file_type (mesh_format spec))).
  assert (G : exists r, trace ok c_release 100 spec_default (opened Props.Loaded.ex_cut) = Some r /\ version (mesh_format (fst r)) = str "4.1").
  { eexists. split; [vm_compute; reflexivity|reflexivity]. }
  destruct G as (r & G & V). split.
  - intros w spec s Mt N. pose proof (trace_meets ok _ _ _ _ G _ _ _ Mt) as K. unfold ok in K. apply bytes_eqb_neq in N. rewrite N in K.
    cbn [orb] in K. apply andb_true_iff in K. destruct K as (K1 & K2). split; [apply bytes_eqb_eq; exact K1|apply Z.ltb_lt; exact K2].
  - intros raw EW E. pose proof (trace_ends ok _ _ _ _ G) as EW'.
    rewrite (one_end _ _ _ _ EW EW') in E. rewrite V in E. discriminate.
Qed.

(** No hazard is listed in vain. *)
Definition under (v : bytes) (ft ds : Z) : MshSpec := set_format {| version := v; file_type := ft; data_size := ds |} spec_default.

Lemma overflow_occurs : forall n ft ds, exists s, load_nodes (big n) (under (str "4.1") ft ds) s = Undef SignedOverflow.
Proof.
  intros n ft ds. unfold load_nodes. change (file_type (mesh_format (under (str "4.1") ft ds))) with ft. destruct (ft =? 0).
  - exists (opened (str " 1 0 0 0 2147483647 1 1 0")). vm_compute. reflexivity.
  - exists (opened (x0a :: le 8 1 ++ le 8 0 ++ le 8 0 ++ le 8 0 ++ le 4 2147483647 ++ le 4 1 ++ le 4 1 ++ le 8 0)). vm_compute. reflexivity.
Qed.

Lemma wrap_occurs : forall n ds, exists s, load_nodes (big n) (under (str "4.1") 0 ds) s = Undef OutOfBounds.
Proof.
  intros n ds. exists (opened (str " 1 0 0 0 1073741821 1 1 17179869184")).
  unfold load_nodes, bind at 1. cbv zeta. change (bytes_eqb (version (mesh_format (under (str "4.1") 0 ds))) v41s) with true.
  change (file_type (mesh_format (under (str "4.1") 0 ds)) =? 0) with true. cbv iota. unfold v41_load_nodes_ascii.
  do 4 (erewrite bind_op by (vm_compute; reflexivity)).
  erewrite bind_run by reflexivity. erewrite bind_lift by reflexivity.
  change (firstn (Z.to_nat 1) _ ++ repeat nb_default (Z.to_nat 1 - _)) with [nb_default]. cbn [mapM]. unfold bind at 1 2.
  erewrite coordinates_wrap_occurs; [reflexivity|vm_compute; reflexivity|vm_compute; reflexivity|vm_compute; reflexivity|vm_compute; reflexivity].
Qed.

Lemma node_cut_occurs : forall n ft ds, ft <> 0 -> exists s, load_nodes (big n) (under (str "2.2") ft ds) s = Undef Indeterminate.
Proof.
  intros n ft ds F. apply Z.eqb_neq in F. unfold load_nodes. change (file_type (mesh_format (under (str "2.2") ft ds))) with ft. rewrite F.
  exists (opened (str " 1 ")). vm_compute. reflexivity.
Qed.

Lemma elements_wrap_occurs : forall n ds, exists s, load_elements (big n) (under (str "4.1") 0 ds) s = Undef OutOfBounds.
Proof. intros n ds. exists (opened (str " 1 1 1 1 0 1 15 9223372036854775808")). vm_compute. reflexivity. Qed.

Lemma element_cut_occurs : forall n ft ds, exists s, load_elements (big n) (under (str "2.2") ft ds) s = Undef Indeterminate.
Proof.
  intros n ft ds. unfold load_elements. change (file_type (mesh_format (under (str "2.2") ft ds))) with ft. destruct (ft =? 0).
  - exists (opened []). vm_compute. reflexivity.
  - exists (opened (str " 1 ")). vm_compute. reflexivity.
Qed.

Lemma tags_occur : forall n ft ds, ft <> 0 -> exists s, load_elements (big n) (under (str "2.2") ft ds) s = Undef SignedOverflow.
Proof.
  intros n ft ds F. apply Z.eqb_neq in F. unfold load_elements. change (file_type (mesh_format (under (str "2.2") ft ds))) with ft. rewrite F.
  exists (opened (str " 1 " ++ le 4 15 ++ le 4 1 ++ le 4 536870912)). cbv zeta.
  change (bytes_eqb (version (mesh_format (under (str "2.2") ft ds))) v41s) with false.
  change (bytes_eqb (version (mesh_format (under (str "2.2") ft ds))) v22s) with true. cbv iota. unfold bind at 1.
  unfold v22_load_elements_binary. erewrite bind_op by (vm_compute; reflexivity). erewrite bind_lift by reflexivity.
  erewrite bind_op by (vm_compute; reflexivity). unfold bind at 1.
  erewrite tag_bytes_occurs; [reflexivity|reflexivity|reflexivity|reflexivity|vm_compute; reflexivity|vm_compute; reflexivity|vm_compute; reflexivity].
Qed.

Lemma entities_cut_occurs : forall n ft ds, load_entities (big n) (under (str "4.1") ft ds) (opened []) = Undef Indeterminate.
Proof.
  intros n ft ds. unfold load_entities. change (file_type (mesh_format (under (str "4.1") ft ds))) with ft.
  destruct (ft =? 0); vm_compute; reflexivity.
Qed.

Lemma fields_occur : forall n v ft ds, ft <= 0 -> exists s, load_element_node_data (big n) (under v ft ds) s = Undef OutOfBounds.
Proof.
  intros n v ft ds F. unfold load_element_node_data. change (file_type (mesh_format (under v ft ds))) with ft.
  apply Z.ltb_ge in F. rewrite F. exists (opened (str " 0 0 3 0 -1 1 7 -1")). vm_compute. reflexivity.
Qed.

Theorem C54_hazards_occur : forall c f w u, hazard c f w u -> exists c' spec s,
  nanospline c' = nanospline c /\ mesh_format spec = f /\ dispatch c' (str w) spec s = Undef u.
Proof.
  intros c [v ft ds] w u H.
  assert (X : (exists s, dispatch (big (nanospline c)) (str w) (under v ft ds) s = Undef u) -> exists c' spec s,
    nanospline c' = nanospline c /\ mesh_format spec = {| version := v; file_type := ft; data_size := ds |} /\ dispatch c' (str w) spec s = Undef u).
  { intros (s & Hs). exists (big (nanospline c)), (under v ft ds), s. split; [reflexivity|split; [reflexivity|exact Hs]]. }
  apply X. clear X.
  destruct H as [V|V T|V T|V T|V|V T|V| |name IN|T|name N IN]; unfold v41, v22, text in *; cbn [version file_type] in *; subst.
  - apply overflow_occurs.
  - apply wrap_occurs.
  - apply node_cut_occurs. exact T.
  - apply elements_wrap_occurs.
  - apply element_cut_occurs.
  - apply tags_occur. exact T.
  - exists (opened []). apply entities_cut_occurs.
  - exists (opened []). vm_compute. reflexivity.
  - exists (opened []). destruct IN as [<-|[<-|[<-|[]]]]; vm_compute; reflexivity.
  - apply fields_occur. exact T.
  - exists (opened []). unfold big. rewrite N. destruct IN as [<-|[<-|[]]]; vm_compute; reflexivity.
Qed.
Print Assumptions C54_hazards_occur.

(** Whole files: each exception and each kind of undefined behaviour. *)
Definition ex_elsewhere : bytes := Props.Loaded.line "$MeshFormat" ++ Props.Loaded.line "4.0 0 8".
Definition ex_entities22 : bytes := Props.Loaded.line "$MeshFormat" ++ Props.Loaded.line "2.2 0 8" ++ Props.Loaded.line "$EndMeshFormat" ++
  Props.Loaded.line "$Entities".
Definition ex_blocks (n : string) : bytes := Props.Loaded.header_41 false ++ Props.Loaded.line "$Nodes" ++ Props.Loaded.line n.
(** The element has dimension -1 and entity -1; the second header has its node
    regrouped. *)
Definition ex_mixed : bytes := Props.Loaded.header_41 false ++ Props.Loaded.line "$Elements 1 1 1 1 -1 -1 15 1 1 1 $EndElements" ++
  Props.Loaded.line "$MeshFormat 2.2 0 8 $EndMeshFormat" ++ Props.Loaded.line "$Nodes 1 1 0 0 0 $EndNodes".

Theorem C54_all_occur :
  (exists m b, load_msh c_release b = Throw (UnsupportedFeature m)) /\ (exists m b, load_msh c_release b = Throw (InvalidFormat m)) /\
  (forall e, memory e -> exists b, load_msh c_release b = Throw e) /\
  (forall u, In u [OutOfBounds; Indeterminate; SignedOverflow; EmptyBack] -> exists b, load_msh c_release b = Undef u).
Proof.
  split; [|split; [|split]].
  - eexists. exists ex_elsewhere. vm_compute. reflexivity.
  - eexists. exists ex_entities22. vm_compute. reflexivity.
  - intros e [->| ->].
    + exists (ex_blocks "9223372036854775807 0 0 0"). vm_compute. reflexivity.
    + exists (ex_blocks "1000000 0 0 0"). vm_compute. reflexivity.
  - intros u [<-|[<-|[<-|[<-|[]]]]].
    + exists Props.Loaded.ex_wrap. vm_compute. reflexivity.
    + exists Props.Loaded.ex_short. vm_compute. reflexivity.
    + exists (ex_blocks "1 0 0 0 2147483647 1 1 0"). vm_compute. reflexivity.
    + exists ex_mixed. vm_compute. reflexivity.
Qed.
Print Assumptions C54_all_occur.

(** Saving: two exceptions, three kinds of undefined behaviour, no endless
    loop, and asserts only with splines. *)
Theorem C54_save : forall c s,
  (forall e, snd (save_msh c s) = Throw e -> exists m, e = UnsupportedFeature m \/ e = InvalidFormat m) /\
  (forall u, snd (save_msh c s) = Undef u -> In u [OutOfBounds; SignedOverflow; NegativeCount]) /\
  (snd (save_msh c s) = Abort -> ndebug c = false /\ nanospline c = true) /\ snd (save_msh c s) <> Diverge.
Proof.
  intros c s. destruct (save_go c s (fun e => exists m, e = UnsupportedFeature m \/ e = InvalidFormat m) (fun u => In u [OutOfBounds; SignedOverflow; NegativeCount])
    ltac:(cbn; auto) ltac:(cbn; auto) ltac:(cbn; auto) ltac:(intros; eexists; left; reflexivity)
    ltac:(intros; eexists; left; reflexivity) ltac:(intros; eexists; right; reflexivity)) as (A & B).
  split; [|split; [|split]]; [intros e H|intros u H|intro H|exact A]; rewrite H in B; exact B.
Qed.
Print Assumptions C54_save.

Definition ex_node (ft dim num : Z) : MshSpec :=
  set_format {| version := str "4.1"; file_type := ft; data_size := 8 |}
    (set_nodes {| n_num_blocks := 1; n_num_nodes := 1; n_min := 1; n_max := 1; n_blocks :=
       [{| nb_dim := dim; nb_tag := 1; nb_parametric := 1; nb_num := num; nb_tags := []; nb_data := [] |}] |} spec_default).
Definition ex_other : MshSpec := set_format {| version := str "4.0"; file_type := 1; data_size := 8 |}
  (set_node_data [{| d_header := {| string_tags := []; real_tags := []; int_tags := [] |}; d_entries := [] |}] spec_default).
Definition ex_other_node : MshSpec := set_format {| version := str "4.0"; file_type := 1; data_size := 8 |} (ex_node 1 0 0).

Theorem C54_save_occur :
  (exists m s, snd (save_msh c_release s) = Throw (UnsupportedFeature m)) /\
  (exists m s, snd (save_msh c_release s) = Throw (InvalidFormat m)) /\
  (forall u, In u [OutOfBounds; SignedOverflow; NegativeCount] -> exists s, snd (save_msh c_release s) = Undef u) /\
  exists s, snd (save_msh c_debug s) = Abort.
Proof.
  split; [|split; [|split]].
  - eexists. exists ex_other_node. vm_compute. reflexivity.
  - eexists. exists ex_other. vm_compute. reflexivity.
  - intros u [<-|[<-|[<-|[]]]].
    + exists (ex_node 1 0 1). vm_compute. reflexivity.
    + exists (ex_node 1 2147483647 0). vm_compute. reflexivity.
    + exists (ex_node 1 0 1152921504606846976). vm_compute. reflexivity.
  - exists (set_curves [{| cv_tag := 1; cv_type := 1; cv_degree := 1; cv_ncp := 1; cv_nknots := 0; cv_weights := 0; cv_data := [] |}] spec_default). vm_compute. reflexivity.
Qed.
Print Assumptions C54_save_occur.

(** The file-name overloads add std::runtime_error, for files that cannot be
    opened, and nothing else. *)
Theorem C54_files : forall c cap st name s,
  ((exists m, load_file c st name = Throw (RuntimeError m)) <-> files st name = None) /\
  ((exists m, snd (save_file c cap st name s) = Throw (RuntimeError m)) <-> writable st name = false).
Proof.
  intros c cap st name s. split.
  - unfold load_file. destruct (files st name) as [b|]; [|split; [reflexivity|eexists; reflexivity]]. split; [|discriminate]. intros (m & H).
    destruct (C54_load c b) as (A & _). destruct (A _ H) as [(m' & [X|X])|[X|X]]; discriminate.
  - unfold save_file. destruct (writable st name); [|split; [reflexivity|eexists; reflexivity]]. split; [|discriminate]. intros (m & H).
    destruct (C54_save c s) as (A & _). destruct (save_msh c s) as [b r]. cbn [snd] in *.
    destruct (A _ H) as (m' & [X|X]); discriminate.
Qed.
Print Assumptions C54_files.
