(** C70: a saved file tells what was saved. *)

From Verif Require Import Model.Save Spec.Distinct Spec.Rounding Tests.Examples Tests.ExamplesRt22 Tests.ExamplesConv
  Proofs.ShowP Proofs.RoundP Proofs.TextP Proofs.StableP Proofs.AgreeP Proofs.DistinctP Props.Stable.

(** 4.1: specs with the same file have the same encoding and differ only in
    what no file holds. *)
Theorem C70_41 : exists r : dbl -> dbl,
  (forall x, size_ok x -> finite x -> six_digits_of x (r x)) /\
  forall c a a' s t, consistent41 c a s -> consistent41 c a' t -> fst (save_msh c s) = fst (save_msh c t) ->
    a = a' /\ via41 a r (nanospline c) s = via41 a r (nanospline c) t.
Proof. exists ascii_round. split; [exact ascii_round_six|exact same_file41]. Qed.
Print Assumptions C70_41.

(** And the other way round, if every double written as text is normal or
    unchanged by the rounding. *)
Theorem C70_41_iff : exists r : dbl -> dbl,
  (forall x, size_ok x -> finite x -> six_digits_of x (r x)) /\
  forall c a a' s t, consistent41 c a s -> consistent41 c a' t ->
    Forall (fun x => normal x \/ r x = x) (text_doubles a s) ->
    Forall (fun x => normal x \/ r x = x) (text_doubles a' t) ->
    (fst (save_msh c s) = fst (save_msh c t) <->
     a = a' /\ via41 a r (nanospline c) s = via41 a r (nanospline c) t).
Proof.
  exists ascii_round. split; [exact ascii_round_six|]. intros c a a' s t H1 H2 S1 S2. split.
  - apply same_file41; assumption.
  - intros (<- & E). rewrite <- (save41_again c a s H1 S1), <- (save41_again c a t H2 S2), E. reflexivity.
Qed.
Print Assumptions C70_41_iff.

(** Nothing left out and nothing rounded: only one spec has that file. *)
Theorem C70_exact41 : exists r : dbl -> dbl,
  (forall x, size_ok x -> finite x -> six_digits_of x (r x)) /\
  forall c a a' s t, consistent41 c a s -> consistent41 c a' t -> written_out c a s -> written_out c a' t ->
    Forall (fun x => r x = x) (text_doubles a s) -> Forall (fun x => r x = x) (text_doubles a' t) ->
    fst (save_msh c s) = fst (save_msh c t) -> s = t.
Proof.
  exists ascii_round. split; [exact ascii_round_six|]. intros c a a' s t H1 H2 W1 W2 S1 S2 E.
  destruct (same_file41 c a a' s t H1 H2 E) as (<- & V).
  rewrite (comes_back c a _ s W1 S1), (comes_back c a _ t W2 S2) in V. exact V.
Qed.
Print Assumptions C70_exact41.

(** Binary, no real tags: no rounding to speak of. *)
Theorem C70_binary41 : forall c s t, consistent41 c false s -> consistent41 c false t ->
  written_out c false s -> written_out c false t ->
  (forall d, In d (all_data s ++ all_data t) -> real_tags (d_header d) = []) ->
  fst (save_msh c s) = fst (save_msh c t) -> s = t.
Proof.
  intros c s t H1 H2 W1 W2 R E. destruct C70_exact41 as (r & _ & C). apply (C c false false s t H1 H2 W1 W2); [| |exact E].
  - unfold text_doubles. rewrite app_nil_r. apply Forall_forall. intros x Hx. apply in_flat_map in Hx.
    destruct Hx as (d & Hd & Hx). rewrite R in Hx by (apply in_or_app; auto). destruct Hx.
  - unfold text_doubles. rewrite app_nil_r. apply Forall_forall. intros x Hx. apply in_flat_map in Hx.
    destruct Hx as (d & Hd & Hx). rewrite R in Hx by (apply in_or_app; auto). destruct Hx.
Qed.
Print Assumptions C70_binary41.

(** 2.2: the same nodes and elements in the same order, and the same data. *)
Theorem C70_22 : exists r : dbl -> dbl,
  (forall x, size_ok x -> finite x -> six_digits_of x (r x)) /\
  forall c a a' s t, consistent22 c a s -> consistent22 c a' t -> fst (save_msh c s) = fst (save_msh c t) ->
    a = a' /\ same22 c a r s t.
Proof. exists ascii_round. split; [exact ascii_round_six|exact same_file22]. Qed.
Print Assumptions C70_22.

(** Nothing is both a 2.2 and a 4.1 file. *)
Theorem C70_versions : forall c a a' s t, consistent41 c a s -> consistent22 c a' t ->
  fst (save_msh c s) <> fst (save_msh c t).
Proof. exact versions_apart. Qed.
Print Assumptions C70_versions.

(** The example spec. *)
Example C70_hyp : forall a,
  consistent41 c_debug a (ex_spec (str "4.1") a) /\ consistent22 c_debug a (ex_spec (str "2.2") a) /\
  written_out c_debug a (ex_spec (str "4.1") a) /\
  forall r, (forall x, size_ok x -> finite x -> six_digits_of x (r x)) ->
    Forall (fun x => normal x \/ r x = x) (text_doubles a (ex_spec (str "4.1") a)).
Proof.
  intro a. split; [exact (ex_spec_41 false a)|]. split; [exact (ex_spec_22 false a)|]. split.
  - split; try discriminate. intros _. destruct a; apply ex_small_data.
  - intros r H. apply ex_settles. exact H.
Qed.

(** ** What is not told *)

Definition dot (x : dbl) : MshSpec :=
  {| mesh_format := {| version := str "4.1"; file_type := 0; data_size := 8 |};
     nodes := {| n_num_blocks := 1; n_num_nodes := 1; n_min := 1; n_max := 1;
       n_blocks := [ {| nb_dim := 0; nb_tag := 1; nb_parametric := 0; nb_num := 1; nb_tags := [1]; nb_data := [x; 0; 0] |} ] |};
     elements := e_default;
     entities := {| points := []; curves_e := []; surfaces_e := []; volumes_e := [] |};
     physical_groups := []; node_data := []; element_data := []; element_node_data := [];
     ns_version := str "1.0"; curves := []; patches := [] |}.

Lemma dot_41 : forall x, size_ok x -> finite x -> consistent41 c_release true (dot x).
Proof.
  intros x X1 X2. split; [reflexivity|reflexivity|reflexivity| | |].
  - split; cbn [dot physical_groups nodes elements node_data element_data element_node_data].
    + ex_ok.
    + ex_ok.
    + intros _. split; cbn [n_num_blocks n_blocks n_min n_max]; ex_ok.
    + ex_ok.
    + intro H. destruct (H eq_refl).
    + constructor.
    + constructor.
    + constructor.
  - split; cbn; ex_ok.
  - intros _. split; cbn; ex_ok.
Qed.

(** A third and the next double have the same text. *)
Theorem C70_digits_refuted : exists c s t, consistent41 c true s /\ consistent41 c true t /\
  written_out c true s /\ written_out c true t /\ fst (save_msh c s) = fst (save_msh c t) /\ s <> t.
Proof.
  exists c_release, (dot d13), (dot (d13 + 1)).
  split; [apply dot_41; vm_compute; intuition discriminate|].
  split; [apply dot_41; vm_compute; intuition discriminate|].
  split; [split; (discriminate || (intros; reflexivity))|].
  split; [split; (discriminate || (intros; reflexivity))|].
  split; [vm_compute; reflexivity|]. intro E. apply (f_equal (fun s => map nb_data (n_blocks (nodes s)))) in E.
  cbn [dot nodes n_blocks map nb_data] in E. injection E as E. revert E. unfold d13. discriminate.
Qed.
Print Assumptions C70_digits_refuted.

Definition marked (t : Z) : MshSpec :=
  {| mesh_format := {| version := str "4.1"; file_type := 1; data_size := 8 |};
     nodes := n_default; elements := elements no_nodes;
     entities := {| points := []; curves_e := []; surfaces_e := []; volumes_e := [] |};
     physical_groups := [];
     node_data := [ {| d_header := {| string_tags := []; real_tags := []; int_tags := [0; 0; 1] |};
                       d_entries := [ {| de_tag := t; de_npe := 0; de_data := [] |} ] |} ];
     element_data := []; element_node_data := [];
     ns_version := str "1.0"; curves := []; patches := [] |}.

Lemma marked_41 : forall t, size_ok t -> consistent41 c_release false (marked t).
Proof.
  intros t T. split; [reflexivity|reflexivity|reflexivity| | |].
  - split; cbn [marked physical_groups nodes elements node_data element_data element_node_data].
    + ex_ok.
    + ex_ok.
    + intro H. destruct (H eq_refl).
    + exact (pko_num_elements _ _ _ (ok41_parts _ _ _ no_nodes_41)).
    + exact (pko_elements _ _ _ (ok41_parts _ _ _ no_nodes_41)).
    + apply Forall_cons; [|apply Forall_nil]. split; cbn [d_header d_entries string_tags real_tags int_tags];
        try (ex_ok; fail). exists 0, 0, []. split; [reflexivity|]. apply Forall_cons; [|apply Forall_nil].
      split; cbn [de_tag de_npe de_data]; first [exact T|reflexivity|apply Forall_nil|ex_ok].
    + constructor.
    + constructor.
  - split; cbn; ex_ok.
  - intros _. split; cbn; ex_ok.
Qed.

(** Binary files hold half of the tag of a data entry. *)
Theorem C70_tags_refuted : exists c s t, consistent41 c false s /\ consistent41 c false t /\
  (forall d, In d (all_data s ++ all_data t) -> real_tags (d_header d) = []) /\
  fst (save_msh c s) = fst (save_msh c t) /\ s <> t.
Proof.
  exists c_release, (marked 5), (marked 4294967301).
  split; [apply marked_41; vm_compute; intuition discriminate|].
  split; [apply marked_41; vm_compute; intuition discriminate|].
  split; [intros d [<-|[<-|[]]]; reflexivity|].
  split; [vm_compute; reflexivity|]. intro E.
  apply (f_equal (fun s => map (fun d => map de_tag (d_entries d)) (node_data s))) in E. discriminate E.
Qed.
Print Assumptions C70_tags_refuted.

Example C70_hyp_binary : exists s t, consistent41 c_release false s /\ consistent41 c_release false t /\
  written_out c_release false s /\ written_out c_release false t /\
  (forall d, In d (all_data s ++ all_data t) -> real_tags (d_header d) = []) /\ s <> t /\ e_num_elements (elements s) = 1.
Proof.
  exists (marked 5), (marked 6).
  split; [apply marked_41; vm_compute; intuition discriminate|].
  split; [apply marked_41; vm_compute; intuition discriminate|].
  split; [split; try discriminate; [reflexivity|intros _ d e [<-|[]] [<-|[]]; cbn; lia]|].
  split; [split; try discriminate; [reflexivity|intros _ d e [<-|[]] [<-|[]]; cbn; lia]|].
  split; [intros d [<-|[<-|[]]]; reflexivity|]. split; [|reflexivity]. intro E.
  apply (f_equal (fun s => map (fun d => map de_tag (d_entries d)) (node_data s))) in E. discriminate E.
Qed.
