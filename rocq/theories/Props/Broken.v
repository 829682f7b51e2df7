(** C16: saving and loading values that are not finite. *)

From Verif Require Import Model.Save Spec.NonFinite Spec.Rounding Tests.Examples Tests.ExamplesRt22 Tests.ExamplesNan
  Proofs.ShowP Proofs.RoundP Proofs.NonFiniteW Proofs.NonFinite22.

(** The spec is written in any case, and the file loads if and only if every
    double written as text is finite. *)
Theorem C16_saved41 : forall c a s, consistent41 c a (finite_part a s) -> Forall size_ok (written41 c a s) ->
  exists b, save_msh c s = (b, Ok tt) /\
    ((exists s', load_msh c b = Ok s') <-> Forall finite (written41 c a s)).
Proof.
  intros c a s H HS. destruct (nonfinite41 c a s H HS) as (b & W & G & B). exists b. split; [exact W|]. split.
  - intros (s' & L). destruct (Forall_dec finite) with (l := written41 c a s) as [F|F]; [|exact F|].
    + intro x. unfold finite. destruct (Z.eq_dec ((x / 2 ^ 52) mod 2 ^ 11) 2047); [right; tauto|left; assumption].
    + destruct (B F s' L).
  - intro F. eexists. exact (G F).
Qed.
Print Assumptions C16_saved41.

Theorem C16_saved22 : forall c a s, consistent22 c a (finite_part a s) -> Forall size_ok (text_doubles a s) ->
  exists b, save_msh c s = (b, Ok tt) /\
    ((exists s', load_msh c b = Ok s') <-> Forall finite (written22 c a s)).
Proof.
  intros c a s H HS. destruct (nonfinite22 c a s H HS) as (b & W & G & B). exists b. split; [exact W|]. split.
  - intros (s' & L). destruct (Forall_dec finite) with (l := written22 c a s) as [F|F]; [|exact F|].
    + intro x. unfold finite. destruct (Z.eq_dec ((x / 2 ^ 52) mod 2 ^ 11) 2047); [right; tauto|left; assumption].
    + destruct (B F s' L).
  - intro F. destruct (G F) as (s' & L & _). eexists. exact L.
Qed.
Print Assumptions C16_saved22.

(** What comes back in binary: coordinates and data values bit for bit. *)
Theorem C16_binary41 : forall c s, consistent41 c false s ->
  (forall d, In d (all_data s) -> real_tags (d_header d) = []) ->
  exists b s', save_msh c s = (b, Ok tt) /\ load_msh c b = Ok s' /\
    (n_num_nodes (nodes s) <> 0 -> map nb_data (n_blocks (nodes s')) = map nb_data (n_blocks (nodes s))) /\
    entities s' = entities s /\
    map (fun d => map de_data (d_entries d)) (all_data s') = map (fun d => map de_data (d_entries d)) (all_data s) /\
    (nanospline c = true -> curves s' = curves s /\ patches s' = patches s).
Proof.
  intros c s H R. destruct (Rt41.roundtrip41 c false s H) as (b & E & L). exists b. eexists.
  split; [exact E|]. split; [exact L|].
  assert (I : forall l, map (via false ascii_round) l = l) by apply map_id.
  assert (IF : forall A (f : A -> A) l, (forall x, f x = x) -> map f l = l).
  { intros A f l Hf. rewrite <- (map_id l) at 2. apply map_ext. exact Hf. }
  split; [|split; [|split]].
  - intro N. apply Z.eqb_neq in N. cbn [via41 nodes]. unfold nodes_via. rewrite N. cbn [n_blocks].
    rewrite map_map. apply map_ext. intro x. apply I.
  - cbn [via41 entities]. unfold entities_via. destruct (entities s) as [p q r t]. cbn [points curves_e surfaces_e volumes_e].
    rewrite !IF; [reflexivity|intros []; reflexivity..].
  - unfold all_data. cbn [via41 node_data element_data element_node_data]. rewrite <- !map_app, map_map. apply map_ext.
    intro d. cbn [data_via d_entries]. rewrite map_map. apply map_ext. intro e. apply I.
  - intro N. cbn [via41 curves patches]. rewrite N. split; apply IF.
    + intros []. unfold curve_via. cbn. rewrite I. reflexivity.
    + intros []. unfold patch_via. cbn. rewrite I. reflexivity.
Qed.
Print Assumptions C16_binary41.

(** The hypotheses hold of specs with NaN and infinities. *)
Example C16_hyp41 : forall nd a, let c := {| ndebug := nd; nanospline := true; mem := 1000000 |} in
  let s := ex_bad (str "4.1") a in
  consistent41 c a (finite_part a s) /\ Forall size_ok (written41 c a s) /\
  (Forall finite (written41 c a s) <-> a = false).
Proof.
  intros nd a. cbv zeta. split; [apply ex_bad_41|]. split; [apply ex_bad_written; reflexivity|]. destruct a; split.
  - intro F. rewrite Forall_forall in F. exfalso. apply (F nan); [|reflexivity].
    unfold written41. cbn. intuition.
  - discriminate.
  - reflexivity.
  - intros _. cbn. ex_forall; vm_compute; discriminate.
Qed.

Example C16_hyp22 : forall nd a, let c := {| ndebug := nd; nanospline := true; mem := 1000000 |} in
  let s := ex_bad (str "2.2") a in
  consistent22 c a (finite_part a s) /\ Forall size_ok (text_doubles a s) /\
  (Forall finite (written22 c a s) <-> a = false).
Proof.
  intros nd a. cbv zeta. split; [apply ex_bad_22|]. split; [apply (ex_bad_written c_release); reflexivity|]. destruct a; split.
  - intro F. rewrite Forall_forall in F. exfalso. apply (F nan); [|reflexivity].
    unfold written22. cbn. intuition.
  - discriminate.
  - reflexivity.
  - intros _. cbn. ex_forall; vm_compute; discriminate.
Qed.

(** Real tags are text in binary files too. *)
Example C16_hyp_tag : let s := ex_bad_tag (str "4.1") false in
  consistent41 c_release false (finite_part false s) /\ ~ Forall finite (written41 c_release false s).
Proof.
  cbv zeta. split; [apply ex_bad_tag_41|]. intro F. rewrite Forall_forall in F.
  apply (F minus_inf); [|reflexivity]. cbn. intuition.
Qed.

Example C16_hyp_binary : exists s, consistent41 c_release false s /\
  (forall d, In d (all_data s) -> real_tags (d_header d) = []) /\
  In nan (flat_map nb_data (n_blocks (nodes s))).
Proof.
  exists (set_node_data [] (set_element_data [] (ex_bad (str "4.1") false))).
  split; [|split].
  - pose proof (ex_bad_41 true false) as [H1 H2 H3 [K1 K2 K3 K4 K5 K6 K7 K8] H5 H6].
    split; [exact H1|exact H2|exact H3| |exact H5|intro Q; destruct (H6 Q) as [S1 S2 S3]; split; assumption].
    split; [exact K1|exact K2|exact K3|exact K4|exact K5|constructor|constructor|exact K8].
  - intros d Hd. cbn in Hd. destruct Hd as [<-|[]]. reflexivity.
  - cbn. intuition.
Qed.

(** How the claim fails: an endless loop in a release build, an assertion in a
    debug build. *)
Theorem C16_refuted : exists s, consistent41 c_release true (finite_part true s) /\
  (exists b, save_msh c_release s = (b, Ok tt) /\ load_msh c_release b = Diverge) /\
  (exists b, save_msh c_debug s = (b, Ok tt) /\ load_msh c_debug b = Abort).
Proof.
  exists ex_nan. split; [exact ex_nan_41|].
  split; eexists; (split; [vm_compute; reflexivity|vm_compute; reflexivity]).
Qed.
Print Assumptions C16_refuted.
