(** C71: the README's way to the physical groups of an element block. *)

From Verif Require Import Model.LoadMsh Model.Save Model.Validate Spec.Readme Spec.Any22 Spec.Told22 Spec.Consistent22 Spec.Rounding
  Tests.Examples Tests.Examples22 Tests.ExamplesAny22 Tests.ExamplesRt22 Proofs.Trace
  Proofs.File22P Proofs.RegroupP Proofs.PostP Proofs.Final Proofs.Final22 Proofs.ReadmeP Props.AnyLayout22 Props.Told22.

Lemma lookup_22 : forall c s ps b, entities_from ps ents_default (entities s) -> 0 <= eb_dim b <= 3 ->
  (exists l g, first_with ps (eb_dim b) (eb_tag b) l /\ groups_of l (eb_dim b) (eb_tag b) g /\ groups_of_block c s b = Ok g) \/
  ((forall p, ~ tagged (all_recs ps) (eb_dim b) (eb_tag b) p) /\ fails c (groups_of_block c s b)).
Proof.
  intros c s ps b F D. pose proof (first_in ps _ _ (eb_dim b) (eb_tag b) F D) as L.
  rewrite (lookup_pairs ents_default) in L.
  assert (N : in_pairs (pairs ents_default (eb_dim b)) (eb_tag b) = None).
  { unfold pairs. repeat (destruct (_ =? _); [reflexivity|]). reflexivity. }
  rewrite N in L. unfold groups_of_block, fails. destruct (lookup _ _ _) as [g|].
  - left. destruct L as (l & F1 & F2). exists l, g. auto.
  - right. split; [exact L|reflexivity].
Qed.

(** 2.2 files in any layout: the lookup gives the physical tags in the first
    $Elements section with tagged elements of the entity, and fails if there is none. *)
Theorem C71_22 : forall c ascii qs b lo hi, any22 ascii qs b -> Forall (sec22_ok c ascii) qs ->
  loadable c (parts_of qs) lo hi -> exists s, load_msh c b = Ok s /\
  forall blk, In blk (e_blocks (elements s)) ->
    (exists l g, first_with (parts_of qs) (eb_dim blk) (eb_tag blk) l /\
       groups_of l (eb_dim blk) (eb_tag blk) g /\ groups_of_block c s blk = Ok g) \/
    ((forall p, ~ tagged (all_recs (parts_of qs)) (eb_dim blk) (eb_tag blk) p) /\ fails c (groups_of_block c s blk)).
Proof.
  intros c ascii qs b lo hi A O L. destruct (C49_loaded c ascii qs b lo hi A O L) as (s & E & [M _ _ _ _ _ _ _]).
  exists s. split; [exact E|]. intros blk I. apply lookup_22; [exact (mo_entities _ _ _ _ _ M)|].
  pose proof (c22_elements _ (mo_consistent _ _ _ _ _ M)) as B. rewrite Forall_forall in B.
  exact (proj1 (gmsh_dim_range _ _ (eb22_dim _ (B blk I)))).
Qed.
Print Assumptions C71_22.

(** One $Elements section and two tags per element, as Gmsh writes them: the
    lookup works, and gives the physical tags of the entity's elements. *)
Theorem C71_gmsh : forall c ascii qs b lo hi ps1 recs ps2, any22 ascii qs b -> Forall (sec22_ok c ascii) qs ->
  loadable c (parts_of qs) lo hi -> parts_of qs = ps1 ++ ElementsPart recs :: ps2 ->
  all_recs ps1 = [] -> all_recs ps2 = [] -> Forall (fun r => 2 <= zlen (er_tags r)) recs ->
  exists s, load_msh c b = Ok s /\
    (forall blk, In blk (e_blocks (elements s)) ->
       exists g, groups_of_block c s blk = Ok g /\ groups_of recs (eb_dim blk) (eb_tag blk) g) /\
    (forall r, In r recs -> exists blk g, In blk (e_blocks (elements s)) /\ In (rec_element r) (block_elements blk) /\
       groups_of_block c s blk = Ok g /\ In (hd 0 (er_tags r)) g).
Proof.
  intros c ascii qs b lo hi ps1 recs ps2 A O L P P1 P2 T. destruct (C49_loaded c ascii qs b lo hi A O L) as (s & E & [M _ _ _ _ _ _ _]).
  exists s. split; [exact E|].
  assert (AR : all_recs (parts_of qs) = recs).
  { rewrite P. unfold all_recs in *. rewrite flat_map_app. cbn [flat_map part_recs]. rewrite P1, P2. apply app_nil_r. }
  assert (TT : forall r, In r recs -> exists l, er_tags r = hd 0 (er_tags r) :: rec_entity r :: l).
  { intros r Hr. rewrite Forall_forall in T. specialize (T r Hr). unfold rec_entity.
    destruct (er_tags r) as [|p [|t l]]; [unfold zlen in T; cbn in T; lia|unfold zlen in T; cbn in T; lia|]. exists l. reflexivity. }
  assert (BG : forall blk, In blk (e_blocks (elements s)) ->
       exists g, groups_of_block c s blk = Ok g /\ groups_of recs (eb_dim blk) (eb_tag blk) g).
  { intros blk I. pose proof (mo_elements _ _ _ _ _ M) as ME. rewrite AR in ME.
    destruct (block_rec s recs blk ME (c22_elements _ (mo_consistent _ _ _ _ _ M)) (mo_element_full _ _ _ _ _ M) I)
      as (D & r & Hr & D1 & D2).
    destruct (TT r Hr) as (k & Tr). rewrite D2 in Tr.
    destruct (lookup_22 c s _ blk (mo_entities _ _ _ _ _ M) D) as [(l & g & (qs1 & qs2 & Q & Q1 & p & Q2) & G & B)|(N & _)].
    - exists g. split; [exact B|]. assert (l = recs); [|subst l; exact G]. rewrite P in Q.
      assert (X : forall (u1 u2 v1 v2 : list part) x y, u1 ++ ElementsPart x :: u2 = v1 ++ ElementsPart y :: v2 ->
        all_recs u1 = [] -> all_recs u2 = [] -> y <> [] -> y = x).
      { clear. induction u1 as [|u u1 IH]; intros u2 v1 v2 x y X U1 U2 Y.
        - destruct v1 as [|v v1]; [injection X as X _; auto|]. injection X as _ X. subst u2.
          unfold all_recs in U2. rewrite flat_map_app in U2. apply app_eq_nil in U2. destruct U2 as [_ U2].
          cbn [flat_map part_recs] in U2. apply app_eq_nil in U2. destruct U2 as [U2 _]. destruct (Y U2).
        - unfold all_recs in U1. cbn [flat_map] in U1. apply app_eq_nil in U1. destruct U1 as [V U1].
          destruct v1 as [|v v1].
          + injection X as -> X. cbn [part_recs] in V. destruct (Y V).
          + injection X as _ X. exact (IH u2 v1 v2 x y X U1 U2 Y). }
      apply (X _ _ _ _ _ _ Q P1 P2). intros ->. destruct Q2 as (r' & l' & [] & _).
    - destruct (N (hd 0 (er_tags r))). rewrite AR. exists r, k. auto. }
  split; [exact BG|]. intros r Hr. pose proof (mo_elements _ _ _ _ _ M) as ME. rewrite AR in ME.
  assert (I : In (rec_element r) (mesh_elements (elements s))).
  { cbn [bare elements] in ME |- *. rewrite ME. apply in_map. exact Hr. }
  unfold mesh_elements in I. apply in_flat_map in I. destruct I as (blk & I & J). destruct (BG blk I) as (g & B & G).
  exists blk, g. split; [exact I|]. split; [exact J|]. split; [exact B|]. apply G.
  destruct (TT r Hr) as (k & Tr). exists r, k. split; [exact Hr|].
  pose proof (AgreeP.element_block_key blk _ J) as K. unfold element_key in K. cbn [rec_element el_dim el_ent el_type] in K.
  injection K as K1 K2 K3. rewrite K1, K2. auto.
Qed.
Print Assumptions C71_gmsh.

Example C71_hyp : forall nd ascii, let c := {| ndebug := nd; nanospline := true; mem := 1000000 |} in
  any22 ascii ex_secs22 (ex_any22 ascii) /\ Forall (sec22_ok c ascii) ex_secs22 /\ loadable c (parts_of ex_secs22) 1 5 /\
  parts_of ex_secs22 = [NodesPart [ex_m1; ex_m5]] ++ [ElementsPart [ex_r1; ex_r7]] /\
  Forall (fun r => 2 <= zlen (er_tags r)) [ex_r1; ex_r7].
Proof.
  intros nd ascii c. destruct (C49_hyp nd ascii) as (H1 & H2 & H3). split; [exact H1|]. split; [exact H2|].
  split; [exact H3|]. split; [reflexivity|]. repeat constructor; vm_compute; discriminate.
Qed.

(** Any bytes loaded as 2.2, in debug builds. *)
Theorem C71_any : forall c b s, ndebug c = false -> all_22 c b -> version (mesh_format s) = str "2.2" -> load_msh c b = Ok s ->
  exists ps, written22 b ps /\ holds22 ps s /\ forall blk, In blk (e_blocks (elements s)) ->
    (exists l g, first_with ps (eb_dim blk) (eb_tag blk) l /\
       groups_of l (eb_dim blk) (eb_tag blk) g /\ groups_of_block c s blk = Ok g) \/
    ((forall p, ~ tagged (all_recs ps) (eb_dim blk) (eb_tag blk) p) /\ groups_of_block c s blk = Abort).
Proof.
  intros c b s N A V L. destruct (C60_mesh c b s N A V L) as (ps & W & H). exists ps. split; [exact W|]. split; [exact H|].
  intros blk I.
  assert (S22 : sections_22 c b).
  { intros name spec st Mt O. apply (A name spec st Mt). tauto. }
  destruct (consistent22 c b s L S22 V) as (C & _ & _). pose proof (c22_elements _ C) as B. rewrite Forall_forall in B.
  pose proof (lookup_22 c s ps blk (holds_entities _ _ H) (proj1 (gmsh_dim_range _ _ (eb22_dim _ (B blk I))))) as R.
  unfold fails in R. rewrite N in R. exact R.
Qed.
Print Assumptions C71_any.

(** 4.1: saving and loading changes nothing. *)
Theorem C71_kept41 : forall c a s, consistent41 c a s ->
  exists b s', save_msh c s = (b, Ok tt) /\ load_msh c b = Ok s' /\
    forall blk, groups_of_block c s' blk = groups_of_block c s blk.
Proof.
  intros c a s H. destruct (rt41 a) as (r & _ & T). destruct (T c s H) as (b & E1 & E2). exists b. eexists.
  split; [exact E1|]. split; [exact E2|]. intro blk. unfold groups_of_block. rewrite !lookup_pairs.
  cbn [via41 entities]. unfold pairs. cbn [entities_via points curves_e surfaces_e volumes_e]. rewrite !map_map. reflexivity.
Qed.
Print Assumptions C71_kept41.

Example C71_kept_hyp : consistent41 c_debug true (ex_spec (str "4.1") true) /\
  exists blk, In blk (e_blocks (elements (ex_spec (str "4.1") true))) /\
    groups_of_block c_debug (ex_spec (str "4.1") true) blk = Ok [].
Proof. split; [exact (ex_spec_41 false true)|]. eexists. split; [right; left; reflexivity|reflexivity]. Qed.

(** 2.2: after saving and loading it fails for every block. *)
Theorem C71_lost22 : forall c a s, Consistent22.consistent22 c a s ->
  exists b s', save_msh c s = (b, Ok tt) /\ load_msh c b = Ok s' /\ forall blk, fails c (groups_of_block c s' blk).
Proof.
  intros c a s H. destruct (rt22 a) as (r & _ & T). destruct (T c s H) as (b & s' & E1 & E2 & K).
  exists b, s'. split; [exact E1|]. split; [exact E2|]. intro blk. unfold fails, groups_of_block. rewrite lookup_pairs.
  rewrite (k22_entities _ _ _ _ _ K). unfold pairs. repeat (destruct (_ =? _); [reflexivity|]). reflexivity.
Qed.
Print Assumptions C71_lost22.

(** The tags of later sections are missed. *)
Definition two_sections_file : bytes := str "$MeshFormat
2.2 0 8
$EndMeshFormat
$Nodes
1
1 0 0 0
$EndNodes
$Elements
1
1 15 2 7 4 1
$EndElements
$Elements
1
2 15 2 8 4 1
$EndElements
".

Theorem C71_sections_refuted : exists c b s blk, load_msh c b = Ok s /\ e_blocks (elements s) = [blk] /\
  block_elements blk = [rec_element {| er_id := 1; er_type := 15; er_tags := [7; 4]; er_nodes := [1] |};
                        rec_element {| er_id := 2; er_type := 15; er_tags := [8; 4]; er_nodes := [1] |}] /\
  groups_of_block c s blk = Ok [7].
Proof.
  exists c_debug, two_sections_file. eexists. eexists. split; [vm_compute; reflexivity|].
  split; [reflexivity|]. split; vm_compute; reflexivity.
Qed.
Print Assumptions C71_sections_refuted.

(** Being valid is not enough. *)
Theorem C71_valid_refuted : exists c s b blk, load_msh c b = Ok s /\ validate_spec s = Ok tt /\
  In blk (e_blocks (elements s)) /\ fails c (groups_of_block c s blk).
Proof.
  exists c_debug. eexists. exists (str "$MeshFormat
4.1 0 8
$EndMeshFormat
$Nodes
1 1 1 1
0 4 0 1
1
0 0 0
$EndNodes
$Elements
1 1 1 1
0 4 15 1
1 1
$EndElements
"). eexists. split; [vm_compute; reflexivity|]. split; [vm_compute; reflexivity|]. split; [left; reflexivity|reflexivity].
Qed.
Print Assumptions C71_valid_refuted.

Example C71_any_hyp : all_22 c_debug two_sections_file /\
  exists s, load_msh c_debug two_sections_file = Ok s /\ version (mesh_format s) = str "2.2".
Proof.
  assert (G : exists r, trace is_22_all c_debug 60 spec_default (opened two_sections_file) = Some r) by (eexists; vm_compute; reflexivity).
  destruct G as (r & G). split; [exact (all_22_of _ _ _ _ G)|]. eexists. split; [vm_compute; reflexivity|reflexivity].
Qed.

Example C71_lost_hyp : Consistent22.consistent22 c_debug true (ex_spec (str "2.2") true).
Proof. exact (ex_spec_22 false true). Qed.
