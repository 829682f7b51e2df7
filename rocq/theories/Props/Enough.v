(** C78: how much memory a file needs. *)

From Verif Require Import Model.LoadMsh Spec.Text41 Spec.Any22 Spec.Enough Tests.Examples Tests.Examples22 Tests.ExamplesText41 Tests.ExamplesAny22
  Spec.Text22 Proofs.Text41P Proofs.Any22P Proofs.EnoughP Props.AnyLayout.

(** A 4.1 file that loads on a machine with unlimited memory loads with forty bytes of memory
    per byte of the file, as the same spec. *)
Theorem C78_enough : forall c ascii ps b, file41 ascii ps b -> Forall (sec_ok (boundless c) ascii) ps -> ample c b ->
  load_msh c b = Ok (content41 ascii ps) /\ load_msh c b = load_msh (boundless c) b.
Proof.
  intros c ascii ps b H OK A. rewrite (file41_loaded _ _ _ _ H OK).
  rewrite (file41_loaded c _ _ _ H (file41_room c ascii ps b H OK A)). auto.
Qed.
Print Assumptions C78_enough.

(** A 2.2 file needs eight more bytes for every number between its smallest and its largest
    node tag. *)
Theorem C78_enough22 : forall c ascii qs b lo hi, any22 ascii qs b -> Forall (sec22_ok (boundless c) ascii) qs ->
  loadable (boundless c) (parts_of qs) lo hi -> ample c b -> 8 * (hi - lo + 1) <= mem c ->
  exists s, load_msh c b = Ok s /\ content22 ascii qs lo hi s.
Proof.
  intros c ascii qs b lo hi H OK LD A SP. destruct (any22_room c ascii qs b lo hi H OK LD A SP) as [OK' LD'].
  exact (any22_loads c ascii qs b lo hi H OK' LD').
Qed.
Print Assumptions C78_enough22.

(** ** Examples *)

Example C78_hyp_41 : forall nd ascii, let c := {| ndebug := nd; nanospline := true; mem := 40 * zlen (ex_file ascii) |} in
  file41 ascii ex_secs (ex_file ascii) /\ Forall (sec_ok (boundless c) ascii) ex_secs /\ ample c (ex_file ascii) /\
  mem c < 20000.
Proof.
  intros nd ascii c. split; [apply ex_file_41|]. split; [|split; [apply Z.le_refl|destruct ascii; reflexivity]].
  unfold ex_secs, boundless. cbn [ndebug nanospline mem c]. ex_forall.
  - split; [ex_words|]. left. cbn [known_sections In map]. intuition discriminate.
  - ex_forall; ex_ok.
  - split; ex_ok.
  - ex_forall; ex_ok.
Qed.

Example C78_hyp_22 : forall nd ascii, let c := {| ndebug := nd; nanospline := true; mem := 40 * zlen (ex_any22 ascii) |} in
  any22 ascii ex_secs22 (ex_any22 ascii) /\ Forall (sec22_ok (boundless c) ascii) ex_secs22 /\
  loadable (boundless c) (parts_of ex_secs22) 1 5 /\ ample c (ex_any22 ascii) /\ 8 * (5 - 1 + 1) <= mem c /\ mem c < 20000.
Proof.
  intros nd ascii c. split; [apply ex_any_22|]. split; [|split; [|split; [apply Z.le_refl|split; destruct ascii; [discriminate|discriminate|reflexivity|reflexivity]]]].
  - unfold ex_secs22, boundless. cbn [ndebug nanospline mem c].
    constructor; [|constructor; [|constructor; [|constructor; [|constructor]]]]; cbn [sec22_ok].
    + split; [ex_words|]. left. cbn [known_sections In map]. intuition discriminate.
    + repeat constructor; vm_compute; intuition discriminate.
    + split; ex_ok.
    + repeat constructor; try (vm_compute; intuition discriminate).
  - pose proof (ex_loadable22 {| ndebug := nd; nanospline := true; mem := 1000000 |} eq_refl) as [L1 L2 L3 L4 L5 L6 L7 L8 L9].
    split; [exact L1|exact L2|exact L3|exact L4| | | | |].
    + destruct L5 as [X _]. split; [exact X|discriminate].
    + destruct L6 as [X _]. split; [exact X|discriminate].
    + eapply Forall_impl; [|exact L7]. intros p [X Y]. split; [exact X|]. eapply Z.le_trans; [exact Y|discriminate].
    + destruct L8 as [X _]. split; [exact X|discriminate].
    + eapply Forall_impl; [|exact L9]. intros p [[X Y] [X' Y']]. split; (split; [assumption|]); (eapply Z.le_trans; [eassumption|discriminate]).
Qed.
