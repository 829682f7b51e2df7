(** C55: spacing and line ends do not matter in text files. *)

From Verif Require Import Model.Save Model.LoadMsh Spec.Spacing Tests.Examples Tests.ExamplesRt22 Proofs.SpacingP Proofs.SavedTextP Proofs.FormatP.
From Verif Require Props.Loaded Props.Format.

(** Two texts of the same words load alike, well formed or not: the same mesh,
    exception, abort or undefined behaviour. *)
Theorem C55_respaced : forall c b b', respaced b b' -> load_msh c b = load_msh c b'.
Proof. exact respaced_loads. Qed.
Print Assumptions C55_respaced.

(** So do texts with Unix and with DOS line ends. *)
Theorem C55_dos : forall c ws b, tidy ws -> Forall (fun w => ~ In x0a w) ws -> typed ws b -> load_msh c (dos b) = load_msh c b.
Proof. intros c ws b T N S. symmetry. apply respaced_loads, (dos_respaced ws); assumption. Qed.
Print Assumptions C55_dos.

(** Saved text files are such texts. *)
Lemma saved_calm : forall v, v = str "4.1" \/ v = str "2.2" -> calm v /\ v <> [].
Proof.
  intros v [->| ->]; (split; [|discriminate]); repeat (constructor; [split; [reflexivity|split; discriminate]|]); constructor.
Qed.

Theorem C55_saved : forall c s, consistent41 c true s \/ consistent22 c true s -> no_empty_lines s -> plain_names s ->
  exists ws b, save_msh c s = (b, Ok tt) /\ tidy ws /\ Forall (fun w => ~ In x0a w) ws /\ typed ws b.
Proof.
  intros c s H W N. assert (K : save_msh c s = (frames (section_names c s) (section_bodies msh c s), Ok tt) /\
    file_type (mesh_format s) = 0 /\ (version (mesh_format s) = str "4.1" \/ version (mesh_format s) = str "2.2")).
  { destruct H as [H|H].
    - split; [apply (file41 c true); auto|]. split; [apply (ok41_type _ _ _ H)|left; apply (ok41_version _ _ _ H)].
    - split; [apply (file22 c true); auto|]. split; [apply (ok22_type _ _ _ H)|right; apply (ok22_version _ _ _ H)]. }
  destruct K as (E & T & V). destruct (saved_words c s T (saved_calm _ V) N) as (ws & A & B & C). eauto 7.
Qed.
Print Assumptions C55_saved.

(** A text editor may change the line ends of a saved file. *)
Theorem C55_saved_dos : forall c s b, consistent41 c true s \/ consistent22 c true s -> no_empty_lines s -> plain_names s ->
  save_msh c s = (b, Ok tt) -> load_msh c (dos b) = load_msh c b.
Proof.
  intros c s b H W N E. destruct (C55_saved c s H W N) as (ws & b' & E' & A & B & C). rewrite E in E'. injection E' as ->.
  apply (C55_dos c ws); assumption.
Qed.
Print Assumptions C55_saved_dos.

(** A mesh with every section. *)
Definition ex_plain_data : Data :=
  {| d_header := {| string_tags := [str "a ""quoted"" name"]; real_tags := real_tags (d_header ex_node_data);
                    int_tags := int_tags (d_header ex_node_data) |};
     d_entries := d_entries ex_node_data |}.
Definition ex_plain (v : bytes) : MshSpec :=
  set_node_data [ex_plain_data] (set_element_data [ex_plain_data] (
  set_physical_groups [ {| pg_dim := 2; pg_tag := 4; pg_name := str "top ""side""" |} ] (ex_spec v true))).

Example C55_hyp : let c := {| ndebug := true; nanospline := true; mem := 1000000 |} in
  consistent41 c true (ex_plain (str "4.1")) /\ consistent22 c true (ex_plain (str "2.2")) /\
  no_empty_lines (ex_plain (str "4.1")) /\ plain_names (ex_plain (str "4.1")).
Proof.
  intro c. assert (D1 : Forall (data_ok c true false) [ex_plain_data]).
  { ex_forall; split; cbn; ex_ok; exists 0, 2, [9]; split; [reflexivity|ex_ok]. }
  split; [|split; [|split]].
  - destruct (ex_spec_41 true true) as [V T D P E S]. split; try assumption.
    + destruct P. split; try assumption. ex_ok.
    + intro N. destruct (S N). split; assumption.
  - destruct (ex_spec_22 true true) as [? ? ? ? ? ? ? ? ? ? ? ? ? ? S]. split; try assumption; [ex_ok|].
    intro N. destruct (S N). split; assumption.
  - split; [exact (proj1 (Props.Format.ex_no_empty_lines (str "4.1") true))|]. cbn. repeat constructor; discriminate.
  - assert (N : forall n, (forallb (fun b => negb (Byte.eqb b x24 || Byte.eqb b x0a)) n) = true -> plain_name n).
    { intros n H. rewrite forallb_forall in H. split; intro I; apply H in I; discriminate. }
    split; [ex_forall; apply N; reflexivity|]. split.
    + cbn. ex_forall; apply N; reflexivity.
    + repeat (constructor; [split; [reflexivity|split; discriminate]|]). constructor.
Qed.

(** Words and their text. *)
Definition ex_words_55 : list bytes :=
  map str ["$MeshFormat"; "4.1"; "0"; "8"; "$EndMeshFormat"; "$PhysicalNames"; "1"; "2"; "7"; """a b"""; "$EndPhysicalNames"]%string.
Definition ex_text (sep : bytes) : bytes := flat_map (fun w => w ++ sep) ex_words_55.

Example C55_ex_words : tidy ex_words_55 /\ Forall (fun w => ~ In x0a w) ex_words_55 /\
  forall sep, blank sep -> sep <> [] -> typed ex_words_55 (ex_text sep).
Proof.
  assert (U : forall w, forallb (fun b => negb (is_ws b || Byte.eqb b x22)) w = true -> w <> [] -> item w).
  { intros w H N. left. split; [exact N|]. apply Forall_forall. intros b I. rewrite forallb_forall in H. specialize (H _ I).
    apply Bool.negb_true_iff, Bool.orb_false_iff in H. destruct H as (A & B). split; [exact A|]. intros ->. discriminate. }
  split; [split|split].
  - unfold ex_words_55. cbn [map]. do 9 (constructor; [apply U; [reflexivity|discriminate]|]).
    constructor; [right; exists (str "a b"); split; [reflexivity|cbn; intuition discriminate]|].
    constructor; [apply U; [reflexivity|discriminate]|constructor].
  - intros l p v w r E. destruct l as [|x l].
    + injection E as _ _ <- _. split; [|split; discriminate].
      exists [], false, [x30], (0 + 1), (10 * 0 + 0). split; [reflexivity|]. split; [constructor|].
      split; [apply (digits_snoc [] 0 0 x30 0); [constructor|split; [lia|reflexivity]]|]. split; [lia|reflexivity].
    + exfalso. assert (I : In (p ++ str "$MeshFormat") (tl ex_words_55)).
      { injection E as _ E. change (tl ex_words_55) with (tl (str "$MeshFormat" :: tl ex_words_55)). cbn [tl].
        unfold ex_words_55. cbn [map tl]. rewrite E. apply in_or_app. right. left. reflexivity. }
      assert (F : forall w, In w (tl ex_words_55) -> firstn 11 (rev w) <> rev (str "$MeshFormat")).
      { intros y Y. cbn in Y. repeat (destruct Y as [<-|Y]; [discriminate|]). destruct Y. }
      apply (F _ I). rewrite rev_app_distr. reflexivity.
  - repeat (constructor; [cbn; intuition discriminate|]). constructor.
  - intros sep B N. exists [], (ex_text sep). split; [constructor|]. split; [|reflexivity].
    unfold ex_text. generalize ex_words_55. intro l. induction l as [|w l IH]; [constructor|]. cbn [flat_map]. rewrite <- app_assoc.
    constructor; assumption.
Qed.

Example C55_ex : exists s, load_msh c_debug (ex_text (str " ")) = Ok s /\ load_msh c_debug (ex_text [x0d; x0a; x09]) = Ok s /\
  map pg_name (physical_groups s) = [str "a b"].
Proof. eexists. split; [vm_compute; reflexivity|]. split; vm_compute; reflexivity. Qed.

(** Neither holds of quoted line ends, of section names in quotes, or of binary
    files. *)
Theorem C55_newline_refuted : exists c b s s', load_msh c b = Ok s /\ load_msh c (dos b) = Ok s' /\
  map pg_name (physical_groups s) = [[x61; x0a; x62]] /\ map pg_name (physical_groups s') = [[x61; x0d; x0a; x62]].
Proof.
  exists c_debug, (Props.Loaded.header_41 false ++ Props.Loaded.line "$PhysicalNames" ++ Props.Loaded.line "1" ++
    str "2 7 ""a" ++ [x0a] ++ Props.Loaded.line "b""" ++ Props.Loaded.line "$EndPhysicalNames").
  do 2 eexists. split; [vm_compute; reflexivity|]. split; [vm_compute; reflexivity|]. split; reflexivity.
Qed.
Print Assumptions C55_newline_refuted.

Theorem C55_binary_refuted : exists c b s s', load_msh c b = Ok s /\ load_msh c (dos b) = Ok s' /\
  n_num_blocks (nodes s) = 0 /\ n_num_blocks (nodes s') = 10.
Proof.
  exists c_release, (Props.Loaded.header_41 true ++ Props.Loaded.line "$Nodes" ++
    flat_map (le 8) [0; 0; 10; 0] ++ Props.Loaded.line "$EndNodes").
  do 2 eexists. split; [vm_compute; reflexivity|]. split; [vm_compute; reflexivity|]. split; reflexivity.
Qed.
Print Assumptions C55_binary_refuted.

Theorem C55_dollar_refuted : exists c b s s', load_msh c b = Ok s /\ load_msh c (dos b) = Ok s' /\
  map (fun d => string_tags (d_header d)) (node_data s) = [[[x0a]]] /\
  map (fun d => string_tags (d_header d)) (node_data s') = [[[x0d; x0a]]].
Proof.
  exists c_debug, (Props.Loaded.header_41 false ++ Props.Loaded.line """q $NodeData 1 """ ++
    Props.Loaded.line """ 0 3 0 1 0 $EndNodeData""").
  do 2 eexists. split; [vm_compute; reflexivity|]. split; [vm_compute; reflexivity|]. split; reflexivity.
Qed.
Print Assumptions C55_dollar_refuted.
