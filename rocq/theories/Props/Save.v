(** C23, C36, C38, C44: what save_msh writes, and where. *)

From Verif Require Import Spec.Layout Spec.Valid Spec.Consistent Model.Save Model.Fs Tests.Examples Proofs.BytesP
  Proofs.SaveP Proofs.LayoutP Proofs.Final.

(** C36: a fixed sequence of framed sections, whose bodies depend on nothing
    but the section's content, the version and the file type. *)
Theorem C36_layout : exists B : bodies, forall c s, snd (save_msh c s) = Ok tt ->
  fst (save_msh c s) = frames (section_names c s) (section_bodies B c s) /\
  List.length (section_names c s) = List.length (section_bodies B c s).
Proof.
  exists the_bodies. intros c s H. split; [apply save_layout, H|].
  unfold section_names, section_bodies. cbv zeta.
  rewrite !app_length, !map_length. unfold when.
  repeat match goal with |- context [if ?b then _ else _] => destruct b end; rewrite ?app_length; reflexivity.
Qed.
Print Assumptions C36_layout.

(** The header line. *)
Theorem C36_format : forall c s, exists rest, fst (save_msh c s) =
  str "$MeshFormat" ++ nl ++
  version (mesh_format s) ++ str " " ++ show_Z (file_type (mesh_format s)) ++ str " " ++
  show_Z (data_size (mesh_format s)) ++ nl ++
  (if file_type (mesh_format s) =? 1 then [x01; x00; x00; x00] else []) ++
  str "$EndMeshFormat" ++ nl ++ rest.
Proof.
  intros c s. rewrite save_sections. unfold secs. rewrite wfor_app, wfor_one.
  set (w := wfor _ emit). exists (fst w). unfold emit, format_body. cbn [fst snd].
  destruct (file_type (mesh_format s) =? 1); cbn [out wret wseq fst snd]; rewrite <- ?app_assoc; reflexivity.
Qed.
Print Assumptions C36_format.

(** Whatever stops it, it stops inside a section of that sequence. *)
Theorem C36_stopped : forall c s, snd (save_msh c s) <> Ok tt ->
  exists a x r bs part, section_names c s = a ++ x :: r /\ List.length bs = List.length a /\
    fst (save_msh c s) = frames a bs ++ opening x ++ part.
Proof. exact save_broken. Qed.
Print Assumptions C36_stopped.

Example C36_ex : forall a, snd (save_msh c_release (ex_spec (str "4.1") a)) = Ok tt /\
  section_names c_release (ex_spec (str "4.1") a) = map str ["MeshFormat"; "PhysicalNames"; "Entities"; "Nodes";
    "Elements"; "NodeData"; "ElementData"; "ElementNodeData"; "NanoSplineFormat"; "Curves"; "Patches"]%string.
Proof. intros []; split; vm_compute; reflexivity. Qed.

Example C36_ex22 : forall a, snd (save_msh {| ndebug := true; nanospline := false; mem := 9 |} (ex_spec (str "2.2") a)) = Ok tt /\
  section_names {| ndebug := true; nanospline := false; mem := 9 |} (ex_spec (str "2.2") a) =
  map str ["MeshFormat"; "PhysicalNames"; "Nodes"; "Elements"; "NodeData"; "ElementData"; "ElementNodeData"]%string.
Proof. intros []; split; vm_compute; reflexivity. Qed.

(** C23: [foreign]: neither "4.1" nor "2.2".  [c0] does not matter. *)
Theorem C23_entities : forall c c0 s, nanospline c0 = false -> foreign s -> has_entities s = true ->
  save_msh c s = (fst (save_msh c0 (stripped s)) ++ opening (str "Entities"), Throw (UnsupportedFeature (str "Unsupported MSH version: " ++ version (mesh_format s)))).
Proof.
  intros c c0 s N F H. destruct (foreign_eqb s F) as [F1 F2]. change v22s with (str "2.2") in F2.
  erewrite (first_throw c c0 s _ _ (UnsupportedFeature (str "Unsupported MSH version: " ++ version (mesh_format s))) N); [|rewrite secs_front, H, F2; reflexivity|]; cbn [fst snd];
    unfold entities_body; rewrite F1; cbn [fst snd]; rewrite ?app_nil_r; reflexivity.
Qed.
Print Assumptions C23_entities.

Theorem C23_nodes : forall c c0 s, nanospline c0 = false -> foreign s -> has_entities s = false ->
  0 < n_num_nodes (nodes s) ->
  save_msh c s = (fst (save_msh c0 (stripped s)) ++ opening (str "Nodes"), Throw (UnsupportedFeature (str "Unsupported MSH version: " ++ version (mesh_format s)))).
Proof.
  intros c c0 s N F H P. destruct (foreign_eqb s F) as [F1 F2]. apply Z.ltb_lt in P.
  erewrite (first_throw c c0 s _ _ (UnsupportedFeature (str "Unsupported MSH version: " ++ version (mesh_format s))) N); [|rewrite secs_front, H, P; reflexivity|]; cbn [fst snd];
    unfold nodes_body; rewrite F1, F2; cbn [fst snd]; rewrite ?app_nil_r; reflexivity.
Qed.
Print Assumptions C23_nodes.

Theorem C23_elements : forall c c0 s, nanospline c0 = false -> foreign s -> has_entities s = false ->
  n_num_nodes (nodes s) <= 0 -> 0 < e_num_elements (elements s) ->
  save_msh c s = (fst (save_msh c0 (stripped s)) ++ opening (str "Elements"), Throw (UnsupportedFeature (str "Unsupported MSH version: " ++ version (mesh_format s)))).
Proof.
  intros c c0 s N F H P Q. destruct (foreign_eqb s F) as [F1 F2]. apply Z.ltb_ge in P. apply Z.ltb_lt in Q.
  erewrite (first_throw c c0 s _ _ (UnsupportedFeature (str "Unsupported MSH version: " ++ version (mesh_format s))) N); [|rewrite secs_front, H, P, Q; reflexivity|]; cbn [fst snd];
    unfold elements_body; rewrite F1, F2; cbn [fst snd]; rewrite ?app_nil_r; reflexivity.
Qed.
Print Assumptions C23_elements.

(** The tag lists that start a data section. *)
Definition tags_text (h : DataHeader) : bytes :=
  show_Z (zlen (string_tags h)) ++ nl ++ flat_map (fun t => quoted t ++ nl) (string_tags h) ++
  show_Z (zlen (real_tags h)) ++ nl ++ flat_map (fun t => show_double t ++ nl) (real_tags h) ++
  show_Z (zlen (int_tags h)) ++ nl ++ flat_map (fun t => show_Z t ++ nl) (int_tags h).

Definition all_data (s : MshSpec) : list (bytes * Data) :=
  map (fun d => (str "NodeData", d)) (node_data s) ++ map (fun d => (str "ElementData", d)) (element_data s) ++
  map (fun d => (str "ElementNodeData", d)) (element_node_data s).

(** For binary data, the section's tags are written as well. *)
Theorem C23_data : forall c c0 s name d r, nanospline c0 = false -> foreign s -> has_entities s = false ->
  n_num_nodes (nodes s) <= 0 -> e_num_elements (elements s) <= 0 -> 0 < file_type (mesh_format s) ->
  all_data s = (name, d) :: r ->
  save_msh c s = (fst (save_msh c0 (stripped s)) ++ opening name ++ tags_text (d_header d), Throw (InvalidFormat (str "Unsupported version " ++ version (mesh_format s)))).
Proof.
  intros c c0 s name d r N F H P Q B E. destruct (foreign_eqb s F) as [F1 F2].
  apply Z.ltb_ge in P, Q. apply Z.ltb_lt in B.
  assert (L : forall A (f : A -> bytes) l, wfor l (fun t => out (f t ++ endl)) = (flat_map (fun t => f t ++ nl) l, Ok tt)).
  { intros A f l. induction l as [|x l IH]; cbn [wfor flat_map]; [reflexivity|]. rewrite IH. reflexivity. }
  assert (D : forall pn, save_data (version (mesh_format s)) (0 <? file_type (mesh_format s)) pn d = (tags_text (d_header d), Throw (InvalidFormat (str "Unsupported version " ++ version (mesh_format s))))).
  { intro pn. unfold save_data. rewrite B, F1, F2. unfold save_data_header. rewrite !L.
    cbn [out wseq fst snd]. unfold tags_text. rewrite <- ?app_assoc, ?app_nil_r. reflexivity. }
  unfold all_data in E.
  destruct (node_data s) as [|d1 l1] eqn:E1; [|cbn [map app] in E; injection E as <- <- _; erewrite (first_throw c c0 s _ _ (InvalidFormat (str "Unsupported version " ++ version (mesh_format s))) N);
     [|rewrite secs_front, H, P, Q, E1; reflexivity|]; cbn [fst snd]; rewrite D; reflexivity].
  destruct (element_data s) as [|d2 l2] eqn:E2; [|cbn [map app] in E; injection E as <- <- _; erewrite (first_throw c c0 s _ _ (InvalidFormat (str "Unsupported version " ++ version (mesh_format s))) N);
     [|rewrite secs_front, H, P, Q, E1, E2; reflexivity|]; cbn [fst snd]; rewrite D; reflexivity].
  destruct (element_node_data s) as [|d3 l3] eqn:E3; [discriminate E|cbn [map app] in E; injection E as <- <- _; erewrite (first_throw c c0 s _ _ (InvalidFormat (str "Unsupported version " ++ version (mesh_format s))) N);
     [|rewrite secs_front, H, P, Q, E1, E2, E3; reflexivity|]; cbn [fst snd]; rewrite D; reflexivity].
Qed.
Print Assumptions C23_data.

(** With none of them it returns. *)
Theorem C23_none : forall c s, foreign s -> has_entities s = false ->
  n_num_nodes (nodes s) <= 0 -> e_num_elements (elements s) <= 0 ->
  file_type (mesh_format s) <= 0 \/ all_data s = [] ->
  (nanospline c = true -> unchecked c s) ->
  snd (save_msh c s) = Ok tt.
Proof.
  intros c s F H P Q B U. rewrite save_sections, secs_front. rewrite H. apply Z.ltb_ge in P, Q. rewrite P, Q.
  cbn [andb when app]. rewrite !wfor_app.
  rewrite (front_ok {| ndebug := true; nanospline := false; mem := 0 |}) by reflexivity.
  assert (E : ends False (wfor (data_secs s (str "NodeData") false (node_data s)) emit +++
     wfor (data_secs s (str "ElementData") false (element_data s)) emit +++
     wfor (data_secs s (str "ElementNodeData") true (element_node_data s)) emit +++
     wfor (when (nanospline c) ([(str "NanoSplineFormat", out (ns_version s ++ endl))] ++
        when (some (curves s)) [(str "Curves", curves_body c s)] ++
        when (some (patches s)) [(str "Patches", patches_body c s)])) emit)).
  { assert (D : forall name pn ds, file_type (mesh_format s) <= 0 \/ ds = [] -> ends False (wfor (data_secs s name pn ds) emit)).
    { intros name pn ds [G|G]; [|subst ds; apply ends_ret]. apply Z.ltb_ge in G. unfold data_secs. rewrite wfor_map. ends_tac.
      cbn [fst snd]. unfold save_data, save_data_header. rewrite G. ends_tac. }
    assert (G : forall A B (f : A -> B) l, map f l = [] -> l = []) by (intros A B' f [|x l] G; [reflexivity|discriminate G]).
    apply ends_seq; [apply D|apply ends_seq; [apply D|apply ends_seq; [apply D|]]];
      try (destruct B as [B|B]; [left; exact B|right; unfold all_data in B;
           apply app_eq_nil in B; destruct B as [B1 B2]; apply app_eq_nil in B2; destruct B2 as [B2 B3]; eauto]).
    rewrite wfor_when. destruct (nanospline c) eqn:EN; [|apply ends_ret].
    pose proof (splines_ends False c s (U eq_refl) EN) as S.
    rewrite !wfor_app, !wfor_when, !wfor_one, <- !some_zlen.
    unfold save_nanospline_format, save_curves, save_patches in S. unfold emit, curves_body, patches_body. cbn [fst snd].
    rewrite !wseq_assoc. rewrite !wseq_assoc in S. exact S. }
  destruct E as [E|([] & _)]. cbn [wseq snd]. exact E.
Qed.
Print Assumptions C23_none.

Definition ex_foreign (k : nat) (ascii : bool) : MshSpec :=
  let s := ex_spec (str "4.0") ascii in let z := stripped s in
  {| mesh_format := mesh_format s;
     nodes := if (k <? 2)%nat then nodes s else nodes z;
     elements := if (k <? 3)%nat then elements s else elements z;
     entities := if (k <? 1)%nat then entities s else entities z;
     physical_groups := physical_groups s;
     node_data := []; element_data := if (k <? 4)%nat then element_data s else []; element_node_data := [];
     ns_version := []; curves := []; patches := [] |}.

Example C23_ex : foreign (ex_foreign 0 true) /\ map (fun k => snd (save_msh c_release (ex_foreign k false))) [0; 1; 2; 3; 4]%nat =
  (let v := Throw (UnsupportedFeature (str "Unsupported MSH version: 4.0")) in
   [v; v; v; Throw (InvalidFormat (str "Unsupported version 4.0")); Ok tt]) /\
  all_data (ex_foreign 3 false) = [(str "ElementData", ex_node_data)].
Proof. split; [split; discriminate|]. split; vm_compute; reflexivity. Qed.

(** C38: by name. *)
Theorem C38_load : forall c st name,
  (files st name = None -> load_file c st name = Throw (RuntimeError (str "Input file does not exist!"))) /\
  (forall b, files st name = Some b -> load_file c st name = load_msh c b).
Proof. intros c st name. unfold load_file. split; [intros ->; reflexivity|intros b ->; reflexivity]. Qed.
Print Assumptions C38_load.

(** Only that file changes, and nothing if it cannot be opened. *)
Theorem C38_only : forall c cap st name s st' r, save_file c cap st name s = (st', r) ->
  (forall other, other <> name -> files st' other = files st other) /\ writable st' = writable st /\
  (writable st name = false -> st' = st /\ r = Throw (RuntimeError (str "Unable to open output file to write!"))).
Proof.
  intros c cap st name s st' r H. unfold save_file in H. destruct (writable st name) eqn:W.
  - destruct (save_msh c s) as [b o]. injection H as <- <-. cbn [files writable].
    split; [|split; [reflexivity|discriminate]]. intros other O. unfold upd.
    apply bytes_eqb_neq in O. rewrite O. reflexivity.
  - injection H as <- <-. auto.
Qed.
Print Assumptions C38_only.

(** When it throws, whatever the file held before, it now holds complete
    sections and the beginning of another. *)
Theorem C38_throws : forall c st name s st' e, writable st name = true ->
  save_file c None st name s = (st', Throw e) ->
  exists b, files st' name = Some b /\
  exists a x r bs part, section_names c s = a ++ x :: r /\ List.length bs = List.length a /\
    b = frames a bs ++ opening x ++ part.
Proof.
  intros c st name s st' e W H. unfold save_file in H. rewrite W in H.
  pose proof (save_broken c s) as B. destruct (save_msh c s) as [b o]. injection H as <- ->. cbn [fst snd files] in *.
  exists b. split; [unfold upd; rewrite bytes_eqb_refl; reflexivity|]. apply B. discriminate.
Qed.
Print Assumptions C38_throws.

(** Saving and loading by name is saving and loading. *)
Theorem C38_round_trip : forall c st name s st', writable st name = true ->
  save_file c None st name s = (st', Ok tt) ->
  load_file c st' name = load_msh c (fst (save_msh c s)).
Proof.
  intros c st name s st' W H. unfold save_file in H. rewrite W in H. destruct (save_msh c s) as [b o].
  injection H as <- ->. unfold load_file. cbn [files]. unfold upd. rewrite bytes_eqb_refl. reflexivity.
Qed.
Print Assumptions C38_round_trip.

Definition ex_fs : fs :=
  {| files := fun n => if bytes_eqb n (str "a.msh") then Some (str "old") else None;
     writable := fun n => negb (bytes_eqb n (str "/dev/x")) |}.

Example C38_ex : writable ex_fs (str "a.msh") = true /\ writable ex_fs (str "/dev/x") = false /\
  snd (save_file c_release None ex_fs (str "a.msh") (ex_foreign 0 false)) = Throw (UnsupportedFeature (str "Unsupported MSH version: 4.0")) /\
  snd (save_file c_release None ex_fs (str "a.msh") (ex_foreign 4 false)) = Ok tt.
Proof. repeat split; vm_compute; reflexivity. Qed.

(** C44 is false: whatever the spec, a device that takes fewer bytes than the
    file has goes unnoticed; the file is a proper prefix. *)
Theorem C44_refuted : forall c s st name k, writable st name = true -> snd (save_msh c s) = Ok tt ->
  (k < List.length (fst (save_msh c s)))%nat ->
  exists st' b rest, save_file c (Some k) st name s = (st', Ok tt) /\ files st' name = Some b /\
    fst (save_msh c s) = b ++ rest /\ List.length b = k /\ rest <> [].
Proof.
  intros c s st name k W H K. unfold save_file. rewrite W. destruct (save_msh c s) as [b o]. cbn [fst snd] in *. subst o.
  eexists. exists (firstn k b), (skipn k b). split; [reflexivity|]. cbn [files]. unfold upd, stored. rewrite bytes_eqb_refl.
  split; [reflexivity|]. split; [symmetry; apply firstn_skipn|]. split; [apply firstn_length_le; lia|].
  intro E. apply (f_equal (@List.length _)) in E. rewrite skipn_length in E. cbn [List.length] in E. lia.
Qed.
Print Assumptions C44_refuted.

Example C44_ex : snd (save_msh c_release (ex_spec (str "4.1") false)) = Ok tt /\
  (0 < List.length (fst (save_msh c_release (ex_spec (str "4.1") false))))%nat.
Proof. split; [vm_compute; reflexivity|]. apply Nat.ltb_lt. vm_compute. reflexivity. Qed.

(** The outcome does not depend on the device, and what is stored is always a
    prefix of what a device without limits would hold. *)
Theorem C44_prefix : forall c s st name cap st' r st2 r2,
  save_file c cap st name s = (st', r) -> save_file c None st name s = (st2, r2) ->
  r = r2 /\ (writable st name = true ->
    exists b rest, files st' name = Some b /\ files st2 name = Some (b ++ rest)).
Proof.
  intros c s st name cap st' r st2 r2 H1 H2. unfold save_file in *. destruct (writable st name).
  - destruct (save_msh c s) as [b o]. injection H1 as <- <-. injection H2 as <- <-. split; [reflexivity|]. intros _.
    cbn [files]. unfold upd. rewrite bytes_eqb_refl. destruct cap as [k|]; cbn [stored].
    + exists (firstn k b), (skipn k b). rewrite firstn_skipn. auto.
    + exists b, []. rewrite app_nil_r. auto.
  - injection H1 as <- <-. injection H2 as <- <-. split; [reflexivity|discriminate].
Qed.
Print Assumptions C44_prefix.
