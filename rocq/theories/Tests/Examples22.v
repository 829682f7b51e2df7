(** Concrete 2.2 files. *)

From Verif Require Import Spec.Text22 Tests.Examples.

Definition ex_n1 : node := {| n_tag := 1; n_x := 0; n_y := 0; n_z := 0 |}.
Definition ex_n2 : node := {| n_tag := 2; n_x := d15; n_y := 0; n_z := 0 |}.
Definition ex_n5 : node := {| n_tag := 5; n_x := d01; n_y := dm2; n_z := 0 |}.
Definition ex_n3 : node := {| n_tag := 3; n_x := 0; n_y := d15; n_z := 0 |}.

(** A point, a line and two triangles. *)
Definition ex_r1 : el_rec := {| er_id := 1; er_type := 15; er_tags := [9; 4]; er_nodes := [1] |}.
Definition ex_r7 : el_rec := {| er_id := 7; er_type := 1; er_tags := [3; 6]; er_nodes := [1; 5] |}.
Definition ex_r8 : el_rec := {| er_id := 8; er_type := 2; er_tags := [3; 6]; er_nodes := [1; 2; 3] |}.
Definition ex_r9 : el_rec := {| er_id := 9; er_type := 2; er_tags := [2; 6]; er_nodes := [2; 5; 3] |}.

Definition ex_parts : list part :=
  [NodesPart [ex_n1; ex_n2; ex_n5]; ElementsPart [ex_r1; ex_r7];
   NodesPart [ex_n3]; ElementsPart [ex_r8; ex_r9]].

Definition ex_ascii22 : bytes := str "$MeshFormat
2.2 0 8
$EndMeshFormat
$Nodes
3
1 0 0 0
2 1.5 0 0
5 0.1 -2e0 0
$EndNodes
$Elements
2
1 15 2 9 4 1
7 1 2 3 6 1 5
$EndElements
$Nodes
1
3 0 15e-1 0
$EndNodes
$Elements
2
8 2 2 3 6 1 2 3
9 2 2 2 6 2 5 3
$EndElements
".

Definition ex_binary22 : bytes :=
  str "$MeshFormat
2.2 1 8
" ++ [x01; x00; x00; x00] ++ str "
$EndMeshFormat
$Nodes
3
" ++ List.concat (map node_bytes [ex_n1; ex_n2; ex_n5]) ++ str "
$EndNodes
$Elements
2
" ++ ints [15; 1; 2;  1; 9; 4; 1;  1; 1; 2;  7; 3; 6; 1; 5] ++ str "$EndElements
$Nodes
1
" ++ node_bytes ex_n3 ++ str "$EndNodes
$Elements
2
" ++ ints [2; 2; 2;  8; 3; 6; 1; 2; 3;  9; 2; 6; 2; 5; 3] ++ str "
$EndElements
".

Ltac ex_denotes :=
  split; [eexists; eexists; split; [vm_compute; reflexivity|reflexivity]|];
  let b := fresh in let H := fresh in let c := fresh in
  intros b H; destruct b as [|c b]; [destruct H|];
  destruct c; try discriminate H; vm_compute; reflexivity.

Ltac ex_laid :=
  match goal with |- laid_out ?l ?t =>
    let l' := eval vm_compute in l in let t' := eval vm_compute in t in change (laid_out l' t') end;
  repeat match goal with
  | |- laid_out [] _ => apply laid_nil
  | |- laid_out (?w :: ?l) ?t =>
    let c := eval vm_compute in (firstn 1 (skipn (List.length w) t)) in
    let t' := eval vm_compute in (skipn (S (List.length w)) t) in
    apply (laid_cons w c l t'); [repeat constructor|discriminate|]
  end.

Lemma ex_file_ascii : file_of true ex_parts ex_ascii22.
Proof.
  exists [str "$Nodes
3
1 0 0 0
2 1.5 0 0
5 0.1 -2e0 0
$EndNodes
"; str "$Elements
2
1 15 2 9 4 1
7 1 2 3 6 1 5
$EndElements
"; str "$Nodes
1
3 0 15e-1 0
$EndNodes
"; str "$Elements
2
8 2 2 3 6 1 2 3
9 2 2 2 6 2 5 3
$EndElements
"]. split; [|reflexivity]. repeat constructor.
  - exists (str "3
1 0 0 0
2 1.5 0 0
5 0.1 -2e0 0
"). split; [|reflexivity]. eexists. split.
    + apply (nw_cons ex_n1 _ (str "0") (str "0") (str "0")); [ex_denotes..|].
      apply (nw_cons ex_n2 _ (str "1.5") (str "0") (str "0")); [ex_denotes..|].
      apply (nw_cons ex_n5 _ (str "0.1") (str "-2e0") (str "0")); [ex_denotes..|constructor].
    + ex_laid.
  - exists (str "2
1 15 2 9 4 1
7 1 2 3 6 1 5
"). split; [|reflexivity]. unfold elements_ascii. ex_laid.
  - exists (str "1
3 0 15e-1 0
"). split; [|reflexivity]. eexists. split.
    + apply (nw_cons ex_n3 _ (str "0") (str "15e-1") (str "0")); [ex_denotes..|constructor].
    + ex_laid.
  - exists (str "2
8 2 2 3 6 1 2 3
9 2 2 2 6 2 5 3
"). split; [|reflexivity]. unfold elements_ascii. ex_laid.
Qed.

Lemma ex_file_binary : file_of false ex_parts ex_binary22.
Proof.
  exists [str "$Nodes
3
" ++ List.concat (map node_bytes [ex_n1; ex_n2; ex_n5]) ++ str "
$EndNodes
"; str "$Elements
2
" ++ ints [15; 1; 2;  1; 9; 4; 1;  1; 1; 2;  7; 3; 6; 1; 5] ++ str "$EndElements
"; str "$Nodes
1
" ++ node_bytes ex_n3 ++ str "$EndNodes
"; str "$Elements
2
" ++ ints [2; 2; 2;  8; 3; 6; 1; 2; 3;  9; 2; 6; 2; 5; 3] ++ str "
$EndElements
"]. split; [|vm_compute; reflexivity]. repeat constructor.
  - eexists. split.
    + exists [x0a]. split; [repeat constructor|reflexivity].
    + vm_compute. reflexivity.
  - eexists. split.
    + exists [{| bl_type := 15; bl_ntags := 2; bl_recs := [ex_r1] |}; {| bl_type := 1; bl_ntags := 2; bl_recs := [ex_r7] |}], [].
      split; [constructor|]. split; [reflexivity|]. split; [|split; [repeat constructor; discriminate|reflexivity]].
      repeat constructor; try discriminate; vm_compute; discriminate.
    + vm_compute. reflexivity.
  - eexists. split.
    + exists []. split; [constructor|reflexivity].
    + vm_compute. reflexivity.
  - eexists. split.
    + exists [{| bl_type := 2; bl_ntags := 2; bl_recs := [ex_r8; ex_r9] |}], [x0a].
      split; [repeat constructor|]. split; [reflexivity|]. split; [|split; [repeat constructor; discriminate|reflexivity]].
      repeat constructor; try discriminate; vm_compute; discriminate.
    + vm_compute. reflexivity.
Qed.

Lemma ex_parts_ok : forall a, Forall (part_ok a) ex_parts.
Proof.
  intro a. repeat constructor; try (vm_compute; intuition discriminate).
Qed.

Lemma ex_loadable : forall c, mem c = 1000000 -> loadable c ex_parts 1 5.
Proof.
  intros c Hm. split.
  - discriminate.
  - split; [right; left; reflexivity|]. split; [vm_compute; discriminate|].
    repeat constructor; vm_compute; discriminate.
  - split; [right; right; right; left; reflexivity|]. split; [vm_compute; discriminate|].
    repeat constructor; vm_compute; discriminate.
  - intros e t He Ht. cbn in He. repeat destruct He as [<-|He]; try destruct He;
      cbn in Ht; repeat destruct Ht as [<-|Ht]; try destruct Ht; vm_compute; intuition discriminate.
  - split; [vm_compute; discriminate|rewrite Hm; vm_compute; discriminate].
  - split; [vm_compute; discriminate|rewrite Hm; vm_compute; discriminate].
  - repeat constructor; try (vm_compute; discriminate); rewrite Hm; vm_compute; discriminate.
  - split; [vm_compute; discriminate|rewrite Hm; vm_compute; discriminate].
  - repeat constructor; try (vm_compute; discriminate); rewrite Hm; vm_compute; discriminate.
Qed.
