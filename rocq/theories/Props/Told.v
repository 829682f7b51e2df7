(** C58: what is loaded is written in the file, in debug builds. *)

From Verif Require Import Model.LoadMsh Spec.Told Spec.Steps Spec.Weight Spec.Ranges Tests.Examples Proofs.BytesP Proofs.BigP
  Proofs.ToldNumP Proofs.ToldFileP Proofs.ToldOneP.
From Verif Require Props.Loaded Props.Weight.

(** Numbers: what an extraction takes is a numeral for its result, as long as
    can be. *)
Theorem C58_int : forall b v r, extract_int b = (v, false, r) -> exists w, b = w ++ r /\ int_written v w r.
Proof. exact extract_int_is. Qed.
Print Assumptions C58_int.
Theorem C58_size : forall b v r, extract_size b = (v, false, r) -> exists w, b = w ++ r /\ size_written v w r.
Proof. exact extract_size_is. Qed.
Print Assumptions C58_size.
Theorem C58_double : forall b v r, extract_double b = (v, false, r) -> exists w, b = w ++ r /\ real_written v w r.
Proof. exact extract_double_is. Qed.
Print Assumptions C58_double.

Example C58_int_ex : extract_int (str "-012e") = (-12, false, str "e") /\ int_written (-12) (str "-012") (str "e").
Proof.
  split; [reflexivity|]. destruct (extract_int_is (str "-012e") (-12) (str "e") eq_refl) as (w & E & H).
  assert (w = str "-012") by (apply (app_inv_tail (str "e")); symmetry; exact E). subst w. exact H.
Qed.
(** "12" does not stand for 1 followed by 2. *)
Example C58_longest_ex : ~ int_written 1 (str "1") (str "2").
Proof.
  intros [_ L]. specialize (L (str "12") [] eq_refl). assert (H : is_integer (str "12")).
  { exists 12, [], false, (str "12"), 2, 12. split; [reflexivity|]. split; [constructor|]. split; [|split; [lia|reflexivity]].
    apply (digits_snoc (str "1") 1 1 x32 2); [|split; [lia|reflexivity]]. apply (digits_snoc [] 0 0 x31 1); [constructor|split; [lia|reflexivity]]. }
  specialize (L H). cbn in L. lia.
Qed.

(** A text stands for one list of numbers of given sorts. *)
Theorem C58_one_meaning : forall l l' t r t' r', map sort_of l = map sort_of l' ->
  in_words (map written l) t r -> in_words (map written l') t' r' -> t ++ r = t' ++ r' -> l = l' /\ t = t'.
Proof.
  intros l l' t r t' r' S H H' E. destruct (words_one _ _ _ _ _ _ S H H' E) as [-> ->]. split; [reflexivity|].
  exact (app_inv_tail _ _ _ E).
Qed.
Print Assumptions C58_one_meaning.

(** Any file: physical groups and data. *)
Theorem C58_common : forall c b s, ndebug c = false -> load_msh c b = Ok s -> told_common b s.
Proof. exact common_told. Qed.
Print Assumptions C58_common.

(** Files whose mesh sections are read as 4.1: also entities, nodes, elements. *)
Theorem C58_mesh : forall c b s, ndebug c = false -> all_41 c b -> load_msh c b = Ok s -> told_mesh b s.
Proof. exact mesh_told. Qed.
Print Assumptions C58_mesh.

Example C58_ex : let b := Props.Loaded.ex_any in all_41 c_debug b /\ exists s, load_msh c_debug b = Ok s /\
  zlen (element_node_data s) = 1 /\ (exists ascii, says b (str "$Nodes") (numbers ascii (nodes_numbers (nodes s)))) /\
  exists ascii, says b (str "$Elements") (numbers ascii (elements_numbers (elements s))).
Proof.
  cbv zeta. destruct Props.Weight.C56_ex as (A & _). split; [exact A|].
  assert (X : exists s, load_msh c_debug Props.Loaded.ex_any = Ok s /\ zlen (element_node_data s) = 1 /\
    zlen (n_blocks (nodes s)) = 2 /\ zlen (e_blocks (elements s)) = 1).
  { eexists. split; [vm_compute; reflexivity|]. repeat split; vm_compute; reflexivity. }
  destruct X as (s & E & X1 & X2 & X3). exists s. split; [exact E|]. split; [exact X1|].
  destruct (C58_mesh c_debug _ _ eq_refl A E) as [_ [N|N] [L|L]]; try (rewrite N in X2; discriminate); try (rewrite L in X3; discriminate). auto.
Qed.

Example C58_common_ex : let b := Props.Weight.ex_22 in exists s, load_msh c_debug b = Ok s /\
  map pg_name (physical_groups s) = [str "ab"] /\ says b (str "$PhysicalNames") (in_words (groups_words (physical_groups s))).
Proof.
  cbv zeta. assert (X : exists s, load_msh c_debug Props.Weight.ex_22 = Ok s /\ map pg_name (physical_groups s) = [str "ab"]).
  { eexists. split; [vm_compute; reflexivity|]. vm_compute. reflexivity. }
  destruct X as (s & E & X1). exists s. split; [exact E|]. split; [exact X1|].
  destruct (C58_common c_debug _ _ eq_refl E) as [[G|G] _ _ _]; [rewrite G in X1; discriminate|exact G].
Qed.

(** In release builds nodes can be loaded that are nowhere in the file. *)
Theorem C58_refuted_release : forall c, ndebug c = true -> 10000 <= mem c ->
  exists b s, load_msh c b = Ok s /\ nodes s <> n_default /\ forall ascii name, ~ says b name (numbers ascii (nodes_numbers (nodes s))).
Proof.
  intros c R M. exists (short_nodes 100), (big_nodes 100). split; [|split].
  - apply nodes_big; [exact R|lia| |unfold sz_NodeBlock; lia]. split; [vm_compute; discriminate|lia].
  - discriminate.
  - intros ascii name (pre & t & post & E & N). apply numbers_length in N. apply (f_equal (@List.length _)) in E. rewrite !app_length in E.
    assert (L1 : List.length (short_nodes 100) = 99%nat) by reflexivity. rewrite L1 in E.
    assert (L2 : (100 <= List.length (nodes_numbers (nodes (big_nodes 100))))%nat) by (vm_compute; repeat constructor).
    lia.
Qed.
Print Assumptions C58_refuted_release.
