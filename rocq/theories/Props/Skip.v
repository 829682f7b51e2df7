(** C25, C26: what load_msh skips. [complete c p spec] says that [p] is a
    sequence of whole sections: whatever follows, the section loop comes out of
    [p] with [spec]. [text l] is a list of words, each with whitespace before it. *)

From Verif Require Import Model.Save Spec.Words Spec.Steps Tests.Examples Proofs.Compose Proofs.SkipP Proofs.Rt41.

Theorem C25_unknown_section : forall c p spec name l w q, complete c p spec ->
  word name -> ~ In name known_sections ->
  words_are (fun t => t <> str "$End" ++ name) l -> blank w -> w <> [] ->
  load_msh c (p ++ (str "$" ++ name ++ text l ++ w ++ str "$End" ++ name ++ endl) ++ q) =
  load_msh c (p ++ q).
Proof. exact unknown_section. Qed.
Print Assumptions C25_unknown_section.

Theorem C26_between : forall c p spec l w q, complete c p spec ->
  words_are plain l -> blank w -> w <> [] ->
  load_msh c (p ++ (text l ++ w) ++ q) = load_msh c (p ++ q).
Proof. exact loose_words. Qed.
Print Assumptions C26_between.

(** The last word of the file needs no whitespace after it. *)
Theorem C26_after : forall c p spec l w t, complete c p spec ->
  words_are plain (l ++ [(w, t)]) -> load_msh c (p ++ text (l ++ [(w, t)])) = load_msh c p.
Proof. exact trailing_words. Qed.
Print Assumptions C26_after.

(** Places where the theorems apply: the start of any file, the end of every
    file written from a consistent 4.1 spec, and after a skipped section. *)
Theorem C25_places : 
  (forall c, complete c [] spec_default) /\
  (forall c a s, consistent41 c a s -> exists spec, complete c (fst (save_msh c s)) spec) /\
  (forall c p spec name l w, complete c p spec -> word name -> ~ In name known_sections ->
     words_are (fun t => t <> str "$End" ++ name) l -> blank w -> w <> [] ->
     complete c (p ++ str "$" ++ name ++ text l ++ w ++ str "$End" ++ name ++ endl) spec) /\
  (forall c p spec l w, complete c p spec -> words_are plain l -> blank w -> w <> [] ->
     complete c (p ++ text l ++ w) spec).
Proof. exact places. Qed.
Print Assumptions C25_places.

Example C25_ex : forall q,
  load_msh c_debug (fst (save_msh c_debug (ex_spec (str "4.1") false)) ++
    str "$Comments the $Nodes section $EndComment $EndComments
" ++ q) = load_msh c_debug (fst (save_msh c_debug (ex_spec (str "4.1") false)) ++ q).
Proof.
  intro q. destruct (proj1 (proj2 C25_places) _ _ _ (ex_spec_41 false false)) as [spec C].
  apply (C25_unknown_section c_debug _ spec (str "Comments")
    [(str " ", str "the"); (str " ", str "$Nodes"); (str " ", str "section"); (str " ", str "$EndComment")]
    (str " ") q C); try (unfold words_are, blank; ex_words; fail).
  unfold known_sections. cbn [map In]. intuition discriminate.
Qed.
