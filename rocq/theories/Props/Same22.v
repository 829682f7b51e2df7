(** C77: what is in a 2.2 file determines the mesh. *)

From Verif Require Import Model.LoadMsh Spec.Text41 Spec.Any22 Spec.Same22 Tests.Examples Tests.Examples22 Tests.ExamplesText41 Tests.ExamplesAny22
  Spec.Text22 Proofs.Text41P Proofs.Same22P Props.Rewrite.

(** The layout, the encoding, how nodes and elements are cut into sections and how sections of
    different kinds are ordered leave no trace in nodes, elements, physical tags, groups, data
    and splines. *)
Theorem C77_same : forall c a a' qs qs' lo hi b b', any22 a qs b -> any22 a' qs' b' ->
  Forall (sec22_ok c a) qs -> Forall (sec22_ok c a') qs' -> loadable c (parts_of qs) lo hi -> loadable c (parts_of qs') lo hi ->
  same_contents qs qs' -> all_recs (parts_of qs) <> [] -> Forall (fun r => 0 <= er_id r) (all_recs (parts_of qs)) ->
  exists s s', load_msh c b = Ok s /\ load_msh c b' = Ok s' /\ same_mesh s s'.
Proof.
  intros c a a' qs qs' lo hi b b' H H' OK OK' LD LD' SC NE ID.
  destruct (same_loaded c a a' qs qs' lo hi b b' H H' OK OK' LD LD' SC NE ID) as (s & s' & L & L' & M & _). exists s, s'. auto.
Qed.
Print Assumptions C77_same.

(** With the elements in the same sections, files of one encoding load as equal specs. *)
Theorem C77_equal : forall c a qs qs' lo hi b b', any22 a qs b -> any22 a qs' b' ->
  Forall (sec22_ok c a) qs -> Forall (sec22_ok c a) qs' -> loadable c (parts_of qs) lo hi -> loadable c (parts_of qs') lo hi ->
  same_contents qs qs' -> all_recs (parts_of qs) <> [] -> Forall (fun r => 0 <= er_id r) (all_recs (parts_of qs)) ->
  element_sections (parts_of qs) = element_sections (parts_of qs') ->
  (a = false -> last_recs (parts_of qs) [] = last_recs (parts_of qs') []) ->
  exists s, load_msh c b = Ok s /\ load_msh c b' = Ok s.
Proof.
  intros c a qs qs' lo hi b b' H H' OK OK' LD LD' SC NE ID ES LR.
  destruct (same_loaded c a a qs qs' lo hi b b' H H' OK OK' LD LD' SC NE ID) as (s & s' & L & L' & M & F & F' & E & N1 & N2).
  exists s. split; [exact L|]. rewrite L'. f_equal. symmetry. apply mesh_equal; [exact M|congruence|auto|].
  destruct a; [auto|]. apply N2; [reflexivity|reflexivity|]. rewrite (LR eq_refl). reflexivity.
Qed.
Print Assumptions C77_equal.

(** The description of what a 2.2 file loads as, [content22] of C49, fits one spec only. *)
Theorem C77_determined : forall a qs lo hi s s', content22 a qs lo hi s -> content22 a qs lo hi s' ->
  all_recs (parts_of qs) <> [] -> Forall (fun r => 0 <= er_id r) (all_recs (parts_of qs)) -> s = s'.
Proof.
  intros a qs lo hi s s' C C' NE ID.
  destruct (contents_mesh a a qs qs lo hi s s' C C') as (M & E & F & F' & N & N'); [split; reflexivity|exact NE|exact ID|].
  apply mesh_equal; [exact M|congruence|auto|congruence].
Qed.
Print Assumptions C77_determined.

(** ** Cases *)

(** Elements first, the nodes in two sections. *)
Definition ex_other : list sec22 :=
  [Part (ElementsPart [ex_r1; ex_r7]); Part (NodesPart [ex_m1]); Extra (SGroups [ex_group]); Part (NodesPart [ex_m5])].
Definition ex_other_file : bytes :=
  (((ex_header22 false ++
   (str "$Elements" ++ tab ++ ex_elements22 false ++ str "$EndElements" ++ str " ")) ++
   (str "$Nodes" ++ [x20] ++ ((str "1" ++ [x20]) ++ List.concat (map node_bytes [ex_m1]) ++ []) ++ str "$EndNodes" ++ [x20])) ++
   (str "$PhysicalNames" ++ [x20] ++ lay [(str "+1", tab); (str "0", tab); (str "-07", str " ");
       (in_quotes (str "a ""b"" c"), crlf)] ++ str "$EndPhysicalNames" ++ crlf)) ++
   (str "$Nodes" ++ [x20] ++ ((str "1" ++ [x20]) ++ List.concat (map node_bytes [ex_m5]) ++ []) ++ str "$EndNodes" ++ [x20]).

Lemma ex_one_node : forall n, sec22_text false (Part (NodesPart [n]))
  (str "$Nodes" ++ [x20] ++ ((str "1" ++ [x20]) ++ List.concat (map node_bytes [n]) ++ []) ++ str "$EndNodes" ++ [x20]).
Proof.
  intro n. exists [x20]. eexists. exists [x20]. do 4 (split; [ex_blank|]). split; [|reflexivity].
  exists (str "1" ++ [x20]), []. split; [|split; [constructor|reflexivity]].
  exists [str "1"], x20. split; [left; reflexivity|]. split; [lay_words|constructor].
Qed.

Lemma ex_other_22 : any22 false ex_other ex_other_file.
Proof.
  unfold ex_other, ex_other_file.
  apply (any22_snoc false _ _ [_; _; _]); [|apply ex_one_node].
  apply (any22_snoc false _ _ [_; _]).
  - apply (any22_snoc false _ _ [_]); [|apply ex_one_node].
    apply (any22_snoc false _ _ []).
    + exists [], (ex_header22 false), [], []. split; [exists []; split; constructor|]. split; [apply ex_header_22|].
      split; [constructor|]. split; [exists []; split; constructor|]. rewrite !app_nil_r. reflexivity.
    + exists tab, (ex_elements22 false), (str " "). do 4 (split; [ex_blank|]). split; [apply ex_elements_22|reflexivity].
  - split; [intros []|].
    exists [x20], (lay [(str "+1", tab); (str "0", tab); (str "-07", str " ");
       (in_quotes (str "a ""b"" c"), crlf)]), crlf.
    do 4 (split; [ex_blank|]). split; [intros _ []|]. split; [|reflexivity].
    eexists. split; [|apply lay_out; reflexivity]. cbn [map fst flat_map group_kinds app]. lay_words.
Qed.

Example C77_hyp : forall nd a, let c := {| ndebug := nd; nanospline := true; mem := 1000000 |} in
  any22 a ex_secs22 (ex_any22 a) /\ any22 false ex_other ex_other_file /\
  Forall (sec22_ok c a) ex_secs22 /\ Forall (sec22_ok c false) ex_other /\
  loadable c (parts_of ex_secs22) 1 5 /\ loadable c (parts_of ex_other) 1 5 /\ same_contents ex_secs22 ex_other /\
  all_recs (parts_of ex_secs22) <> [] /\ Forall (fun r => 0 <= er_id r) (all_recs (parts_of ex_secs22)) /\
  element_sections (parts_of ex_secs22) = element_sections (parts_of ex_other) /\
  last_recs (parts_of ex_secs22) [] = last_recs (parts_of ex_other) [].
Proof.
  intros nd a c. split; [apply ex_any_22|]. split; [exact ex_other_22|]. split; [apply ex_secs22_ok|].
  pose proof (ex_secs22_ok nd false) as F. unfold ex_secs22 in F.
  inversion F as [|q1 r1 _ F1]. inversion F1 as [|q2 r2 G2 F2]. inversion F2 as [|q3 r3 G3 F3]. inversion F3 as [|q4 r4 G4 _]. subst.
  cbn [sec22_ok part_ok] in G2. inversion G2 as [|n1 m1 H1 G5]. inversion G5 as [|n2 m2 H2 _]. subst.
  pose proof (ex_loadable22 c eq_refl) as LD.
  split; [|split; [exact LD|split; [|split; [|split; [discriminate|split; [|split; reflexivity]]]]]].
  - constructor; [exact G4|]. constructor; [constructor; [exact H1|constructor]|]. constructor; [exact G3|].
    constructor; [constructor; [exact H2|constructor]|constructor].
  - destruct LD as [L1 L2 L3 L4 L5 L6 L7 L8 L9]. split; try assumption.
    constructor; [split; vm_compute; discriminate|]. constructor; [split; vm_compute; discriminate|].
    constructor; [split; vm_compute; discriminate|constructor].
  - split; reflexivity.
  - constructor; [discriminate|]. constructor; [discriminate|constructor].
Qed.
