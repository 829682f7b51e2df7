(** C76: any file, loaded and saved in another format. *)

From Verif Require Import Model.Save Spec.Text41 Spec.Any22 Spec.Rewrite Spec.Rounding Tests.Examples Tests.Examples22 Tests.ExamplesText41 Tests.ExamplesAny22 Spec.Text22
  Proofs.ShowP Proofs.RoundP Proofs.RewriteP Proofs.DistinctP Props.AnyLayout.

(** A 4.1 file in any layout, saved as text or as binary, loads as what was loaded up to the
    rounding of numbers. *)
Theorem C76_rewritten : exists r, (forall x, size_ok x -> finite x -> six_digits_of x (r x)) /\ forall c ascii a ps b, 0 <= mem c -> file41 ascii ps b ->
  Forall (sec_ok c ascii) ps -> Forall (sec_ok c a) ps ->
  exists b', save_msh c (as_type a (content41 ascii ps)) = (b', Ok tt) /\
    load_msh c b = Ok (content41 ascii ps) /\
    load_msh c b' = Ok (via41 a r (nanospline c) (as_type a (content41 ascii ps))).
Proof.
  exists ascii_round. split; [exact ascii_round_six|]. intros c ascii a ps b M H OK OK'.
  destruct (rewritten41 c ascii a ps b M H OK OK') as (s & b' & L & -> & S & L'). exists b'. auto.
Qed.
Print Assumptions C76_rewritten.

(** As binary nothing changes except the file type. *)
Theorem C76_lossless : forall c ascii ps b, 0 <= mem c -> file41 ascii ps b ->
  Forall (sec_ok c ascii) ps -> Forall (sec_ok c false) ps -> lossless c (content41 ascii ps) ->
  exists s b', load_msh c b = Ok s /\ save_msh c (as_type false s) = (b', Ok tt) /\
    load_msh c b' = Ok (as_type false s).
Proof.
  intros c ascii ps b M H OK OK' LL. destruct (rewritten41 c ascii false ps b M H OK OK') as (s & b' & L & -> & S & L').
  exists (content41 ascii ps), b'. split; [exact L|]. split; [exact S|]. rewrite L'. f_equal. apply lossless_via.
  destruct LL. split; assumption.
Qed.
Print Assumptions C76_lossless.

(** A 2.2 file in any layout, saved as 4.1: its nodes in their order, up to the rounding of
    coordinates in text, its elements in theirs, its entities and its tag range. *)
Theorem C76_upgraded : exists r, (forall x, size_ok x -> finite x -> six_digits_of x (r x)) /\ forall c ascii a qs lo hi b, any22 ascii qs b ->
  Forall (sec22_ok c ascii) qs -> loadable c (parts_of qs) lo hi -> upgradable c a qs ->
  exists s b' s', load_msh c b = Ok s /\ save_msh c (to41 a s) = (b', Ok tt) /\ load_msh c b' = Ok s' /\
    s' = via41 a r (nanospline c) (to41 a s) /\
    mesh_nodes (nodes s') = map (node_round a r) (all_nodes (parts_of qs)) /\
    n_min (nodes s') = lo /\ n_max (nodes s') = hi /\
    entities_from (parts_of qs) (entities spec_default) (entities s') /\
    (ascii = true \/ last_recs (parts_of qs) [] <> [] ->
     mesh_elements (elements s') = map rec_element (all_recs (parts_of qs))).
Proof.
  exists ascii_round. split; [exact ascii_round_six|]. intros c ascii a qs lo hi b H OK LD UP.
  destruct (upgraded c ascii a qs lo hi b H OK LD UP) as (s & b' & s' & L & S & L' & E & N & LO & HI & EN & EL).
  exists s, b', s'. repeat (split; [assumption|]). rewrite EL. intros [-> |NE]; [reflexivity|].
  destruct ascii; [reflexivity|]. destruct (last_recs (parts_of qs) []) as [|x l]; [congruence|].
  rewrite BytesP.zlen_cons. pose proof (BytesP.zlen_nonneg _ l). destruct (zlen l + 1 =? 0) eqn:X; [|reflexivity].
  apply Z.eqb_eq in X. lia.
Qed.
Print Assumptions C76_upgraded.

(** Of a binary 2.2 file whose last $Elements section is empty no element reaches the 4.1 file. *)
Theorem C76_dropped : forall c a qs lo hi b, any22 false qs b ->
  Forall (sec22_ok c false) qs -> loadable c (parts_of qs) lo hi -> upgradable c a qs -> last_recs (parts_of qs) [] = [] ->
  exists s b' s', load_msh c b = Ok s /\ mesh_elements (elements s) = map rec_element (all_recs (parts_of qs)) /\
    save_msh c (to41 a s) = (b', Ok tt) /\ load_msh c b' = Ok s' /\ mesh_elements (elements s') = [].
Proof.
  intros c a qs lo hi b H OK LD UP LR.
  destruct (upgraded c false a qs lo hi b H OK LD UP) as (s & b' & s' & L & S & L' & _ & _ & _ & _ & _ & EL).
  exists s, b', s'. split; [exact L|]. split; [|rewrite LR in EL; auto].
  destruct (Any22P.any22_loads c false qs b lo hi H OK LD) as (s0 & L0 & C). rewrite L in L0. apply Ok_eq in L0. subst s0.
  apply (mo_elements _ _ _ _ _ (c22_mesh _ _ _ _ _ C)).
Qed.
Print Assumptions C76_dropped.

(** ** Cases *)

Example C76_hyp_41 : forall nd ascii a, let c := {| ndebug := nd; nanospline := true; mem := 1000000 |} in
  0 <= mem c /\ file41 ascii ex_secs (ex_file ascii) /\ Forall (sec_ok c ascii) ex_secs /\ Forall (sec_ok c a) ex_secs /\
  lossless c (content41 ascii ex_secs).
Proof.
  intros nd ascii a c. split; [discriminate|]. split; [apply ex_file_41|]. split; [apply ex_secs_ok|]. split; [apply ex_secs_ok|].
  split; try discriminate.
  - reflexivity.
  - constructor.
  - constructor.
Qed.

Lemma ex_upgradable : forall nd a, upgradable {| ndebug := nd; nanospline := true; mem := 1000000 |} a ex_secs22.
Proof.
  intros nd a. split.
  - constructor; [|constructor; [|constructor]]; (split; [|split]); ex_ok.
  - constructor; [discriminate|]. constructor; [discriminate|constructor].
  - pose proof (ex_secs22_ok nd a) as F. constructor; [exact (Forall_inv F)|].
    constructor; [exact (Forall_inv (Forall_inv_tail (Forall_inv_tail F)))|constructor].
  - split; vm_compute; discriminate.
  - split; vm_compute; discriminate.
  - split; vm_compute; discriminate.
Qed.

Example C76_hyp_22 : forall nd ascii a, let c := {| ndebug := nd; nanospline := true; mem := 1000000 |} in
  any22 ascii ex_secs22 (ex_any22 ascii) /\ Forall (sec22_ok c ascii) ex_secs22 /\
  loadable c (parts_of ex_secs22) 1 5 /\ upgradable c a ex_secs22 /\
  (ascii = true \/ last_recs (parts_of ex_secs22) [] <> []).
Proof.
  intros nd ascii a c. split; [apply ex_any_22|]. split; [apply ex_secs22_ok|]. split; [apply ex_loadable22; reflexivity|].
  split; [apply ex_upgradable|]. right. discriminate.
Qed.

Lemma secs22_snoc : forall ascii q t qs r, secs22_text ascii qs r -> forall l', loose l' -> sec22_text ascii q t ->
  secs22_text ascii (qs ++ [q]) (r ++ l' ++ t).
Proof.
  intros ascii q t qs r H. induction H as [|q' qs l t' r L S _ IH]; intros l' L' T; cbn [app].
  - rewrite <- (app_nil_r (l' ++ t)), <- app_assoc. apply secs22_cons; [exact L'|exact T|constructor].
  - rewrite <- !app_assoc. apply secs22_cons; [exact L|exact S|]. apply IH; assumption.
Qed.

Lemma any22_snoc : forall ascii q t qs b, any22 ascii qs b -> sec22_text ascii q t -> any22 ascii (qs ++ [q]) (b ++ t).
Proof.
  intros ascii q t qs b (l & h & r & l' & L & H & R & L' & ->) T. exists l, h, (r ++ l' ++ t), [].
  split; [exact L|]. split; [exact H|]. split; [apply secs22_snoc; assumption|].
  split; [exists []; split; constructor|]. rewrite <- !app_assoc, app_nil_r. reflexivity.
Qed.

(** The file above with an empty $Elements section at the end. *)
Definition ex_dropped : list sec22 := ex_secs22 ++ [Part (ElementsPart [])].
Definition ex_dropped_file : bytes := ex_any22 false ++ str "$Elements" ++ [x20] ++ (str "0" ++ [x20]) ++ str "$EndElements" ++ [x20].

Example C76_hyp_dropped : forall nd a, let c := {| ndebug := nd; nanospline := true; mem := 1000000 |} in
  any22 false ex_dropped ex_dropped_file /\ Forall (sec22_ok c false) ex_dropped /\
  loadable c (parts_of ex_dropped) 1 5 /\ upgradable c a ex_dropped /\ last_recs (parts_of ex_dropped) [] = [] /\
  zlen (all_recs (parts_of ex_dropped)) = 2.
Proof.
  intros nd a c. split; [|split; [|split; [|split; [|split; reflexivity]]]].
  - apply any22_snoc; [apply ex_any_22|]. exists [x20], (str "0" ++ [x20]), [x20].
    do 4 (split; [ex_blank|]). split; [|reflexivity]. exists (str "0" ++ [x20]), [], [].
    split; [|split; [constructor|split; [reflexivity|split; [constructor|split; [constructor|reflexivity]]]]].
    exists [str "0"], x20. split; [left; reflexivity|]. split; [lay_words|]. constructor.
  - apply Forall_app. split; [apply ex_secs22_ok|]. constructor; constructor.
  - pose proof (ex_loadable22 c eq_refl) as [L1 L2 L3 L4 L5 L6 L7 L8 L9].
    split; try assumption.
    constructor; [exact (Forall_inv L7)|]. constructor; [exact (Forall_inv (Forall_inv_tail L7))|].
    constructor; [split; vm_compute; discriminate|constructor].
  - destruct (ex_upgradable nd a) as [U1 U2 U3 U4 U5 U6]. split; assumption.
Qed.
