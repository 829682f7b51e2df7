(** How much text nodes and elements take in 2.2 files. *)

From Verif Require Import Model.LoadMsh Spec.Told22 Proofs.BytesP Proofs.ToldNumP Proofs.ToldP Proofs.ToldOneP Proofs.Told22ElemsP.

Ltac Zify.zify_post_hook ::= idtac.

Definition node_fields (n : node) : list field := [Size (n_tag n); Real (n_x n); Real (n_y n); Real (n_z n)].
Definition rec_fields (r : el_rec) : list field :=
  Int (er_id r) :: Int (er_type r) :: Int (zlen (er_tags r)) :: map Int (er_tags r) ++ map Int (er_nodes r).
Lemma node22_fields : forall l, flat_map node22_words l = map written (flat_map node_fields l).
Proof. induction l as [|n l IH]; [reflexivity|]. cbn [flat_map]. rewrite map_app, IH. reflexivity. Qed.
Lemma rec22_fields : forall l, flat_map rec22_words l = map written (flat_map rec_fields l).
Proof.
  induction l as [|r l IH]; [reflexivity|]. cbn [flat_map]. rewrite map_app, IH. f_equal. unfold rec22_words, rec_fields. cbn [map]. rewrite map_app, !map_map. reflexivity.
Qed.
Lemma flat_map_at_least : forall A B (f : A -> list B) k l, (forall x, k <= List.length (f x))%nat -> (k * List.length l <= List.length (flat_map f l))%nat.
Proof. intros A B f k l H. induction l as [|x l IH]; cbn [flat_map List.length]; [lia|]. rewrite app_length. pose proof (H x). lia. Qed.

Lemma part_length : forall ascii p t r, part_says ascii p t r -> (3 * (List.length (part_nodes p) + List.length (part_recs p)) <= List.length t)%nat.
Proof.
  intros ascii [l|l] t r H; cbn [part_says part_nodes part_recs] in *.
  - destruct ascii; cbn [nodes22] in H.
    + rewrite node22_fields in H. change (in_words (map written (Size (zlen l) :: flat_map node_fields l)) t r) in H. apply words_length in H. cbn [List.length] in *.
      pose proof (flat_map_at_least _ _ node_fields 4 l ltac:(intro; cbn; lia)). lia.
    + destruct H as ((h & u & -> & _) & _). rewrite !app_length. rewrite ToldSecP.flat_map_concat_map.
      pose proof (flat_map_at_least _ _ node_bytes 4 l ltac:(intro x; unfold node_bytes; rewrite app_length, le_length; lia)). cbn [List.length]. lia.
  - destruct H as [F H]. destruct ascii; cbn [elements22] in H.
    + rewrite rec22_fields in H. change (in_words (map written (Size (zlen l) :: flat_map rec_fields l)) t r) in H. apply words_length in H. cbn [List.length] in *.
      pose proof (flat_map_at_least _ _ rec_fields 3 l ltac:(intro; cbn [rec_fields List.length]; lia)). lia.
    + destruct H as (bs & -> & _ & h & u & -> & _). rewrite !app_length. cbn [List.length].
      assert (3 * List.length (flat_map bl_recs bs) <= List.length (List.concat (map block22_bytes bs)))%nat; [|lia].
      clear. induction bs as [|b bs IH]; [cbn; lia|]. cbn [flat_map map List.concat]. rewrite !app_length. unfold block22_bytes at 1. rewrite !app_length, (ToldSecP.flat_map_concat_map _ _ rec_bytes).
      pose proof (flat_map_at_least _ _ rec_bytes 3 (bl_recs b) ltac:(intro x; unfold rec_bytes; rewrite app_length, le_length; lia)). lia.
Qed.

Lemma parts_length : forall b ps r, parts_in b ps r -> (3 * (List.length (all_nodes ps) + List.length (all_recs ps)) + List.length r <= List.length b)%nat.
Proof.
  intros b ps r H. induction H as [|ps u r H IH|ps p ascii t r H IH S].
  - cbn. lia.
  - rewrite app_length in IH. lia.
  - rewrite !app_length in IH. apply part_length in S. unfold all_nodes, all_recs in *. rewrite !flat_map_app, !app_length. cbn [flat_map]. rewrite !app_nil_r. lia.
Qed.

Lemma cut_nodes_length : forall ascii p t, part_cut ascii p t -> (3 * List.length (part_nodes p) <= List.length t + 3)%nat.
Proof.
  intros ascii [l|l] t H; cbn [part_cut part_nodes] in *; [|cbn; lia]. destruct H as [_ [->|(l1 & x & v & -> & _ & _ & (h & u & -> & _) & _)]]; [cbn; lia|].
  rewrite !app_length, ToldSecP.flat_map_concat_map, le_length. cbn [List.length].
  pose proof (flat_map_at_least _ _ node_bytes 4 l1 ltac:(intro y; unfold node_bytes; rewrite app_length, le_length; lia)). lia.
Qed.
Lemma written_nodes_length : forall b ps, written22 b ps -> (3 * List.length (all_nodes ps) <= List.length b + 3)%nat.
Proof.
  intros b ps [(r & H)|(qs & p & ascii & t & -> & H & C)]; apply parts_length in H; [lia|]. apply cut_nodes_length in C.
  unfold all_nodes in *. rewrite flat_map_app, app_length. cbn [flat_map]. rewrite app_nil_r. rewrite !app_length in H. cbn [str list_byte_of_string List.length] in H. lia.
Qed.
