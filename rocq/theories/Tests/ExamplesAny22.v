(** Concrete 2.2 files in an unusual layout. *)

From Verif Require Import Spec.Any22 Tests.Examples Tests.Examples22 Proofs.Text41P Tests.ExamplesText41.

Definition ex_m1 : node := {| n_tag := 1; n_x := d15; n_y := dm2; n_z := d15 |}.
Definition ex_m5 : node := {| n_tag := 5; n_x := dm2; n_y := d15; n_z := dm2 |}.

(** Nodes, names, elements; a comment first. *)
Definition ex_secs22 : list sec22 :=
  [Extra (SOther (str "Comments")); Part (NodesPart [ex_m1; ex_m5]); Extra (SGroups [ex_group]);
   Part (ElementsPart [ex_r1; ex_r7])].

Definition ex_header22 (ascii : bool) : bytes :=
  if ascii then lay [(str "$MeshFormat", crlf); (str "2.2", tab); (str "00", str "  "); (str "+8", crlf); (str "$EndMeshFormat", crlf)]
  else str "$MeshFormat" ++ crlf ++ lay [(str "2.2", tab); (str "01", str "  "); (str "+8", crlf)] ++
       [x01; x00; x00; x00] ++ str "$EndMeshFormat" ++ crlf.

Definition ex_blocks22 : list block22 :=
  [{| bl_type := 15; bl_ntags := 2; bl_recs := [ex_r1] |}; {| bl_type := 1; bl_ntags := 2; bl_recs := [ex_r7] |}].

Definition ex_nodes22 (ascii : bool) : bytes :=
  if ascii then lay (said ["002"; "+1"; "+.15E+01"; "-002"; "+.15E+01"; "05"; "-2"; "+.15E+01"; "-02"]%string)
  else str "+02" ++ tab ++ List.concat (map node_bytes [ex_m1; ex_m5]) ++ crlf.

Definition ex_elements22 (ascii : bool) : bytes :=
  if ascii then lay (said ["2"; "01"; "15"; "+2"; "9"; "4"; "1"; "7"; "1"; "2"; "+3"; "6"; "01"; "5"]%string)
  else str "02 " ++ List.concat (map block22_bytes ex_blocks22) ++ crlf.

Definition ex_any22 (ascii : bool) : bytes :=
  lay (said ["made"; "by"; "hand"]%string) ++ ex_header22 ascii ++
  (lay (said ["$Comments"; "no"; "$Nodes"; "here"; "$EndComments"]%string)) ++
  lay (said ["next:"]%string) ++ (str "$Nodes" ++ crlf ++ ex_nodes22 ascii ++ str "$EndNodes" ++ crlf) ++
  lay [(str "$PhysicalNames", crlf ++ crlf); (str "+1", tab); (str "0", tab); (str "-07", str " ");
       (in_quotes (str "a ""b"" c"), crlf); (str "$EndPhysicalNames", crlf)] ++
  (str "$Elements" ++ tab ++ ex_elements22 ascii ++ str "$EndElements" ++ str " ").

Lemma ex_header_22 : forall ascii, head_text "2.2" ascii (ex_header22 ascii).
Proof.
  intros []; exists crlf.
  - exists (lay [(str "2.2", tab); (str "00", str "  "); (str "+8", crlf)]), crlf.
    do 4 (split; [ex_blank|]). split; [|reflexivity].
    exists (map fst [(str "2.2", tab); (str "00", str "  "); (str "+8", crlf)]).
    split; [cbn [map fst]; lay_words|apply lay_out; reflexivity].
  - exists (lay [(str "2.2", tab); (str "01", str "  "); (str "+8", crlf)] ++ [x01; x00; x00; x00]), crlf.
    do 4 (split; [ex_blank|]). split; [|reflexivity].
    exists (lay [(str "2.2", tab); (str "01", str "  ")]), crlf, [].
    split.
    { exists (map fst [(str "2.2", tab); (str "01", str "  ")]).
      split; [cbn [map fst]; lay_words|apply lay_out; reflexivity]. }
    exists (str "+8"). split; [lay_num|].
    split; [repeat constructor; cbn [In]; tauto|]. split; [discriminate|]. split; [constructor|reflexivity].
Qed.

Lemma ex_nodes_22 : forall ascii, part_body ascii (NodesPart [ex_m1; ex_m5]) (ex_nodes22 ascii).
Proof.
  intros []; cbn [part_body].
  - eexists. split; [|apply lay_out; reflexivity].
    cbn [map fst said flat_map node22_kinds app ex_m1 ex_m5 n_tag n_x n_y n_z]. lay_words.
  - exists (str "+02" ++ tab), crlf. split; [|split; [ex_blank|unfold ex_nodes22; rewrite <- !app_assoc; reflexivity]].
    exists [str "+02"], x09. split; [right; left; reflexivity|]. split; [lay_words|]. constructor.
Qed.

Lemma ex_elements_22 : forall ascii, part_body ascii (ElementsPart [ex_r1; ex_r7]) (ex_elements22 ascii).
Proof.
  intros []; cbn [part_body].
  - eexists. split; [|apply lay_out; reflexivity].
    cbn [map fst said flat_map rec_kinds app ex_r1 ex_r7 er_id er_type er_tags er_nodes]. lay_words.
  - exists (str "02" ++ [x20]), ex_blocks22, crlf. split; [|split; [ex_blank|]].
    + exists [str "02"], x20. split; [left; reflexivity|]. split; [lay_words|]. constructor.
    + split; [reflexivity|]. split; [|split; [repeat constructor; discriminate|reflexivity]].
      repeat constructor; try discriminate; vm_compute; discriminate.
Qed.

Lemma ex_any_22 : forall ascii, any22 ascii ex_secs22 (ex_any22 ascii).
Proof.
  intro ascii. eexists. exists (ex_header22 ascii). eexists. exists [].
  split; [|split; [apply ex_header_22|split; [|split; [exists []; split; constructor|rewrite app_nil_r; reflexivity]]]].
  - ex_loose.
  - unfold ex_secs22.
    apply (secs22_cons ascii (Extra (SOther (str "Comments"))) _ []).
    { exists []. split; constructor. }
    { split; [intros []|].
      exists (str " "), (lay (said ["no"; "$Nodes"; "here"]%string)), (str " ").
      do 4 (split; [ex_blank|]). split; [intros _ []|]. split; [|reflexivity].
      eexists. split; [|apply lay_out; reflexivity].
      cbn [map fst said]. repeat (apply Forall_cons; [split; [ex_word|discriminate]|]). apply Forall_nil. }
    apply (secs22_cons ascii (Part (NodesPart [ex_m1; ex_m5])) _ (lay (said ["next:"]%string))).
    { ex_loose. }
    { exists crlf, (ex_nodes22 ascii), crlf. do 4 (split; [ex_blank|]). split; [apply ex_nodes_22|reflexivity]. }
    apply (secs22_cons ascii (Extra (SGroups [ex_group])) _ []).
    { exists []. split; constructor. }
    { split; [intros []|].
      exists (crlf ++ crlf), (lay [(str "+1", tab); (str "0", tab); (str "-07", str " ");
       (in_quotes (str "a ""b"" c"), crlf)]), crlf.
      do 4 (split; [ex_blank|]). split; [intros _ []|]. split; [|reflexivity].
      eexists. split; [|apply lay_out; reflexivity]. cbn [map fst flat_map group_kinds app]. lay_words. }
    match goal with |- secs22_text _ _ ?r => rewrite <- (app_nil_r r) end.
    apply (secs22_cons ascii (Part (ElementsPart [ex_r1; ex_r7])) [] []).
    { exists []. split; constructor. }
    { exists tab, (ex_elements22 ascii), (str " "). do 4 (split; [ex_blank|]). split; [apply ex_elements_22|reflexivity]. }
    constructor.
Qed.

Lemma ex_loadable22 : forall c, mem c = 1000000 -> loadable c (parts_of ex_secs22) 1 5.
Proof.
  intros c Hm. split.
  - discriminate.
  - split; [right; left; reflexivity|]. split; [vm_compute; discriminate|].
    repeat constructor; vm_compute; discriminate.
  - split; [right; right; left; reflexivity|]. split; [vm_compute; discriminate|].
    repeat constructor; vm_compute; discriminate.
  - intros e t He Ht. cbn in He. repeat destruct He as [<-|He]; try destruct He;
      cbn in Ht; repeat destruct Ht as [<-|Ht]; try destruct Ht; vm_compute; intuition discriminate.
  - split; [vm_compute; discriminate|rewrite Hm; vm_compute; discriminate].
  - split; [vm_compute; discriminate|rewrite Hm; vm_compute; discriminate].
  - repeat constructor; try (vm_compute; discriminate); rewrite Hm; vm_compute; discriminate.
  - split; [vm_compute; discriminate|rewrite Hm; vm_compute; discriminate].
  - repeat constructor; try (vm_compute; discriminate); rewrite Hm; vm_compute; discriminate.
Qed.

Lemma ex_secs22_ok : forall nd ascii,
  Forall (sec22_ok {| ndebug := nd; nanospline := true; mem := 1000000 |} ascii) ex_secs22.
Proof.
  intros nd ascii. unfold ex_secs22.
  constructor; [|constructor; [|constructor; [|constructor; [|constructor]]]]; cbn [sec22_ok].
  - split; [ex_words|]. left. cbn [known_sections In map]. intuition discriminate.
  - repeat constructor; vm_compute; intuition discriminate.
  - split; ex_ok.
  - repeat constructor; try (vm_compute; intuition discriminate).
Qed.
