(** C65: what load_msh writes to std::cerr. *)

From Verif Require Import Model.Warn Model.Save Spec.Steps Spec.Words Spec.Warnings Spec.Consistent Spec.Consistent22 Spec.Text41
  Tests.Examples Tests.ExamplesRt22 Tests.ExamplesText41 Tests.ExamplesAny22
  Proofs.Compose Proofs.Rt41 Proofs.Rt22 Proofs.Text41P Proofs.Any22P Proofs.WarnP Props.AnyLayout Spec.Any22.

(** Writing to std::cerr changes nothing. *)
Theorem C65_same : forall c b, snd (loud_msh c b) = load_msh c b.
Proof. exact loud_msh_same. Qed.
Print Assumptions C65_same.

(** One line for each unknown section met, in order, nothing else: also if
    load_msh throws, crashes or never returns, and never more however long it runs. *)
Theorem C65_exactly : forall c b, exists l, load_cerr c b = warning_lines l /\
  (exists n p, path c l n (start b) p) /\
  (forall l' n p, path c l' n (start b) p -> exists m, l = l' ++ m).
Proof. exact cerr_exact. Qed.
Print Assumptions C65_exactly.

Theorem C65_finite : forall c b f, (S (S (List.length b)) <= f)%nat -> fst (loud_msh_fuel f c b) = load_cerr c b.
Proof. intros. apply cerr_fuel. assumption. Qed.
Print Assumptions C65_finite.

(** The names are unknown words of the file after a dollar sign. *)
Theorem C65_words : forall c b, exists l, load_cerr c b = warning_lines l /\ spread l b.
Proof.
  intros c b. destruct (cerr_exact c b) as (l & E & (n & p & P) & _). exists l. split; [exact E|].
  exact (path_spread _ _ _ _ _ P).
Qed.
Print Assumptions C65_words.

(** What save_msh writes is loaded in silence. *)
Theorem C65_saved41 : forall c a s, consistent41 c a s -> load_cerr c (fst (save_msh c s)) = [].
Proof.
  intros c a s H. destruct (piece41 c a s H) as (b & E & L). rewrite E. exact (cerr_LOADSw _ _ _ _ _ L).
Qed.
Print Assumptions C65_saved41.

Theorem C65_saved22 : forall c a s, consistent22 c a s -> load_cerr c (fst (save_msh c s)) = [].
Proof.
  intros c a s H. destruct (piece22 c a s H) as (b & E & L). rewrite E. exact (cerr_LOADSw _ _ _ _ _ L).
Qed.
Print Assumptions C65_saved22.

(** A file in any layout, with any sections in any order: the unknown ones are named. *)
Theorem C65_file41 : forall c ascii ps b, file41 ascii ps b -> Forall (sec_ok c ascii) ps ->
  load_cerr c b = warning_lines (unknown_of (map sec_name ps)).
Proof. intros c ascii ps b F OK. exact (cerr_LOADSw _ _ _ _ _ (file41_LOADS c ascii ps b F OK)). Qed.
Print Assumptions C65_file41.

Theorem C65_file22 : forall c ascii qs b lo hi, any22 ascii qs b -> Forall (sec22_ok c ascii) qs ->
  loadable c (parts_of qs) lo hi -> load_cerr c b = warning_lines (unknown_of (map sec_name (extras_of qs))).
Proof.
  intros c ascii qs b lo hi F OK H. destruct (any22_LOADS c ascii qs b lo hi F OK H) as (raw & s & L & _).
  exact (cerr_LOADSw _ _ _ _ _ L).
Qed.
Print Assumptions C65_file22.

(** A build without the spline extension drops the spline sections without a word. *)
Theorem C65_silent : forall c ascii ps b, nanospline c = false -> file41 ascii ps b -> Forall (sec_ok c ascii) ps ->
  (forall p, In p ps -> In (sec_name p) known_sections) ->
  load_cerr c b = [] /\ exists s, load_msh c b = Ok s /\ curves s = [] /\ patches s = [].
Proof.
  intros c ascii ps b NS F OK K. split.
  - rewrite (C65_file41 c ascii ps b F OK). replace (unknown_of (map sec_name ps)) with (@nil bytes); [reflexivity|].
    clear -K. induction ps as [|p ps IH]; [reflexivity|]. unfold unknown_of. cbn [map filter].
    rewrite (proj2 (known_in _) (K p (or_introl eq_refl))). cbn [negb]. apply IH. intros q Hq. apply K. right. exact Hq.
  - exists (content41 ascii ps). split; [exact (file41_loaded c ascii ps b F OK)|]. cbn [content41 curves patches].
    clear -NS OK. induction OK as [|p ps H OK IH]; [split; reflexivity|]. cbn [last_of].
    destruct p; cbn [sec_ok] in H; try exact IH; destruct H; congruence.
Qed.
Print Assumptions C65_silent.

(** ** Concrete cases *)

(** Text, an unknown section, a known one, an unknown one that is never closed. *)
Definition ex_noise : bytes := str "hi $Notes $Nodes 7 $EndNotes $PhysicalNames 0 $EndPhysicalNames $Oops 1 2 3".
Example C65_ex : load_cerr c_release ex_noise =
  str "Warning: skipping section ""$Notes""" ++ [x0a] ++ str "Warning: skipping section ""$Oops""" ++ [x0a].
Proof. vm_compute. reflexivity. Qed.

(** It throws after it has warned. *)
Example C65_throws_ex :
  loud_msh c_release (str "$Notes $EndNotes $MeshFormat 5.0 0 8 $EndMeshFormat $More $EndMore") =
  (str "Warning: skipping section ""$Notes""" ++ [x0a], load_msh c_release (str "$MeshFormat 5.0 0 8")) /\
  exists e, load_msh c_release (str "$MeshFormat 5.0 0 8") = Throw e.
Proof. split; [|eexists]; vm_compute; reflexivity. Qed.

Example C65_saved_hyp : consistent41 c_debug false (ex_spec (str "4.1") false) /\
  consistent22 c_debug true (ex_spec (str "2.2") true).
Proof. split; [apply ex_spec_41|apply ex_spec_22]. Qed.

Example C65_file41_hyp : forall nd ascii, file41 ascii ex_secs (ex_file ascii) /\
  Forall (sec_ok {| ndebug := nd; nanospline := true; mem := 1000000 |} ascii) ex_secs /\
  unknown_of (map sec_name ex_secs) = [str "Comments"].
Proof. intros. split; [apply ex_file_41|]. split; [apply ex_secs_ok|reflexivity]. Qed.

Example C65_file22_hyp : forall nd ascii, let c := {| ndebug := nd; nanospline := true; mem := 1000000 |} in
  any22 ascii ex_secs22 (ex_any22 ascii) /\ Forall (sec22_ok c ascii) ex_secs22 /\
  loadable c (parts_of ex_secs22) 1 5 /\ unknown_of (map sec_name (extras_of ex_secs22)) = [str "Comments"].
Proof.
  intros nd ascii c. split; [apply ex_any_22|]. split; [apply ex_secs22_ok|]. split; [apply ex_loadable22; reflexivity|reflexivity].
Qed.

(** A curve that is not loaded. *)
Example C65_silent_hyp : let c := {| ndebug := true; nanospline := false; mem := 1000000 |} in
  let ps := [SOther (str "Curves")] in
  file41 true ps (ex_header true ++ lay (said ["$Curves"; "1"; "here"; "$EndCurves"]%string)) /\
  Forall (sec_ok c true) ps /\ (forall p, In p ps -> In (sec_name p) known_sections).
Proof.
  intros c ps. split; [|split].
  - exists [], (ex_header true), (lay (said ["$Curves"; "1"; "here"; "$EndCurves"]%string)), [].
    split; [exists []; split; constructor|]. split; [apply ex_header_41|]. split; [|split; [exists []; split; constructor|]].
    + change (lay _) with ([] ++ lay (said ["$Curves"; "1"; "here"; "$EndCurves"]%string) ++ []).
      constructor; [exists []; split; constructor| |constructor].
      exists (str " "), (lay (said ["1"; "here"]%string)), (str " ").
      do 4 (split; [ex_blank|]). split; [discriminate|]. split; [|reflexivity].
      exists (map fst (said ["1"; "here"]%string)). split; [|apply lay_out; reflexivity].
      repeat (apply Forall_cons; [split; [ex_word|discriminate]|]). apply Forall_nil.
    + rewrite app_nil_r. reflexivity.
  - apply Forall_cons; [|apply Forall_nil]. split; [ex_word|]. right. split; [reflexivity|left; reflexivity].
  - intros p [<-|[]]. apply known_in. reflexivity.
Qed.
