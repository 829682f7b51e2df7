(** C47, C48: 4.1 files in any layout, with any sections in any order. *)

From Verif Require Import Model.LoadMsh Spec.Text41 Tests.Examples Tests.ExamplesText41 Proofs.Text41P.

(** Any spelling of the numbers, any whitespace, loose words and unknown sections
    anywhere: the loader returns what the file says. *)
Theorem C47_loaded : forall c ascii ps b, file41 ascii ps b -> Forall (sec_ok c ascii) ps ->
  load_msh c b = Ok (content41 ascii ps).
Proof. exact file41_loaded. Qed.
Print Assumptions C47_loaded.

(** A text file and a binary file with the same sections load to the same mesh. *)
Theorem C47_encodings : forall c ps b b', file41 true ps b -> file41 false ps b' ->
  Forall (sec_ok c true) ps -> Forall (sec_ok c false) ps ->
  exists s, load_msh c b = Ok s /\
    load_msh c b' = Ok (set_format {| version := version (mesh_format s); file_type := 1;
                                      data_size := data_size (mesh_format s) |} s).
Proof. exact encodings_agree. Qed.
Print Assumptions C47_encodings.

(** Sections of different kinds may be swapped. *)
Theorem C48_order : forall c ascii ps p q qs b b', file41 ascii (ps ++ p :: q :: qs) b ->
  file41 ascii (ps ++ q :: p :: qs) b' -> Forall (sec_ok c ascii) (ps ++ p :: q :: qs) ->
  sec_name p <> sec_name q -> load_msh c b = load_msh c b'.
Proof. exact order_free. Qed.
Print Assumptions C48_order.

(** Except for data, a section followed by another one of its kind might as well not be there. *)
Theorem C48_last_counts : forall c ascii ps p qs q b b', file41 ascii (ps ++ p :: qs) b ->
  file41 ascii (ps ++ qs) b' -> Forall (sec_ok c ascii) (ps ++ p :: qs) ->
  replaced p -> In q qs -> sec_name q = sec_name p -> load_msh c b = load_msh c b'.
Proof. exact last_counts. Qed.
Print Assumptions C48_last_counts.

(** ** Concrete cases *)

Lemma ex_node_ok : forall nd ascii tag x, (tag = 3 \/ tag = 4) -> dbl_ok true x ->
  nodes_ok {| ndebug := nd; nanospline := true; mem := 1000000 |} ascii (one_node tag x) /\
  size_ok (n_num_nodes (one_node tag x)).
Proof.
  intros nd ascii tag x [-> | ->] D; split; [split; cbn [one_node n_num_blocks n_blocks n_min n_max n_num_nodes]|
    |split; cbn [one_node n_num_blocks n_blocks n_min n_max n_num_nodes]|]; ex_ok; try assumption; auto.
Qed.

Lemma ex_secs_ok : forall nd ascii,
  Forall (sec_ok {| ndebug := nd; nanospline := true; mem := 1000000 |} ascii) ex_secs.
Proof.
  intros nd ascii. unfold ex_secs. ex_forall.
  - split; [ex_words|]. left. cbn [known_sections In map]. intuition discriminate.
  - apply ex_node_ok; [auto|ex_ok].
  - split; ex_ok.
  - apply ex_node_ok; [auto|ex_ok].
Qed.

Example C47_hyp : forall nd ascii, file41 ascii ex_secs (ex_file ascii) /\
  Forall (sec_ok {| ndebug := nd; nanospline := true; mem := 1000000 |} ascii) ex_secs.
Proof. intros. split; [apply ex_file_41|apply ex_secs_ok]. Qed.

Lemma secs_pick : forall ascii ps r qs, secs_text ascii ps r -> incl qs ps -> exists r', secs_text ascii qs r'.
Proof.
  intros ascii ps r qs H I.
  assert (X : forall q, In q ps -> exists t, sec_text ascii q t).
  { clear I. induction H as [|p ps l t r L T H IH]; intros q [].
    - subst. eauto.
    - eauto. }
  induction qs as [|q qs IH]; [exists []; constructor|].
  destruct (X q (I q (or_introl eq_refl))) as [t T]. destruct IH as [r' R]; [intros z Z; apply I; right; exact Z|].
  exists ([] ++ t ++ r'). constructor; [exists []; split; constructor|exact T|exact R].
Qed.

Lemma file_pick : forall ascii ps b qs, file41 ascii ps b -> incl qs ps -> exists b', file41 ascii qs b'.
Proof.
  intros ascii ps b qs (l & h & r & l' & L & H & R & L' & _) I. destruct (secs_pick _ _ _ _ R I) as [r' R'].
  exists (l ++ h ++ r' ++ l'). exists l, h, r', l'. auto.
Qed.

(** Files with the two nodes sections swapped around the group, and with the first one left out. *)
Example C48_hyp : forall nd ascii, let c := {| ndebug := nd; nanospline := true; mem := 1000000 |} in
  let ps := [SOther (str "Comments"); SNodes (one_node 3 d15)] in
  let p := SGroups [ex_group] in let q := SNodes (one_node 4 dm2) in
  (exists b, file41 ascii (ps ++ p :: q :: []) b) /\ (exists b, file41 ascii (ps ++ q :: p :: []) b) /\
  (exists b, file41 ascii ([SOther (str "Comments")] ++ [p; q]) b) /\
  Forall (sec_ok c ascii) (ps ++ p :: q :: []) /\ sec_name p <> sec_name q /\
  replaced (SNodes (one_node 3 d15)) /\ In q [p; q] /\ sec_name q = sec_name (SNodes (one_node 3 d15)).
Proof.
  intros nd ascii c ps p q.
  split; [eexists; apply ex_file_41|].
  split; [apply (file_pick _ _ _ _ (ex_file_41 ascii)); intros z; cbn [In app ps p q ex_secs]; tauto|].
  split; [apply (file_pick _ _ _ _ (ex_file_41 ascii)); intros z; cbn [In app ps p q ex_secs]; tauto|].
  split; [apply ex_secs_ok|]. split; [discriminate|]. split; [exact I|]. split; [right; left; reflexivity|reflexivity].
Qed.
