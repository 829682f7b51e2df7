(** Concrete 4.1 files in an unusual layout. *)

From Verif Require Import Spec.Text41 Tests.Examples Proofs.NumeralsP Proofs.Text41P Props.Numerals.

(** ** Checking numerals by computation *)

Fixpoint digs (w : bytes) (acc : Z) : option Z :=
  match w with
  | [] => Some acc
  | c :: w => let d := Z.of_N (Byte.to_N c) - 48 in
      if (0 <=? d) && (d <=? 9) then digs w (10 * acc + d) else None
  end.
Definition int_of (w : bytes) : option Z :=
  match w with
  | x2b :: x :: t => digs (x :: t) 0
  | x2d :: x :: t => option_map Z.opp (digs (x :: t) 0)
  | _ :: _ => digs w 0
  | [] => None
  end.

Lemma digs_ok : forall w w0 k n m, digits w0 k n -> digs w n = Some m -> digits (w0 ++ w) (k + zlen w) m.
Proof.
  induction w as [|c w IH]; intros w0 k n m D E.
  - cbn [digs] in E. injection E as <-. rewrite app_nil_r. change (zlen (@nil byte)) with 0. rewrite Z.add_0_r. exact D.
  - cbn [digs] in E. set (d := Z.of_N (Byte.to_N c) - 48) in *. cbv zeta in E.
    destruct ((0 <=? d) && (d <=? 9)) eqn:B; [|discriminate].
    apply andb_true_iff in B. destruct B as [B1 B2]. apply Z.leb_le in B1, B2.
    change (c :: w) with ([c] ++ w). rewrite app_assoc.
    replace (k + zlen ([c] ++ w)) with (k + 1 + zlen w) by (unfold zlen; cbn [app List.length]; lia).
    apply (IH (w0 ++ [c]) (k + 1) (10 * n + d)); [|exact E].
    apply digits_snoc; [exact D|]. split; [lia|]. unfold d. lia.
Qed.

Lemma int_of_ok : forall w z, int_of w = Some z -> integer w z.
Proof.
  assert (P : forall s minus t z, sign s minus -> t <> [] -> digs t 0 = Some z -> integer (s ++ t) (signed minus z)).
  { intros s minus t z S N E. exists s, minus, t, (0 + zlen t), z.
    split; [reflexivity|]. split; [exact S|]. split; [exact (digs_ok t [] 0 0 z digits_nil E)|].
    split; [|reflexivity]. destruct t; [congruence|]. unfold zlen. cbn [List.length]. lia. }
  intros w z H. destruct w as [|c w]; [discriminate|].
  destruct c; try exact (P [] false (_ :: w) z sign_none ltac:(discriminate) H).
  - destruct w as [|x w]; [discriminate|]. exact (P [x2b] false (x :: w) z sign_plus ltac:(discriminate) H).
  - destruct w as [|x w]; [discriminate|]. cbn [int_of option_map] in H.
    destruct (digs (x :: w) 0) as [m|] eqn:E; [|discriminate]. injection H as <-.
    exact (P [x2d] true (x :: w) m sign_minus ltac:(discriminate) E).
Qed.

Lemma int_real : forall w z, integer w z -> exists minus, real w minus (decimal z 0) /\ (z < 0 -> minus = true) /\ (0 < z -> minus = false).
Proof.
  intros w z (s & minus & t & k & n & -> & S & D & K & ->). exists minus. split.
  - exists s, t, [], [], [], k, n, 0, 0, 0. rewrite !app_nil_r.
    split; [reflexivity|]. split; [exact S|]. split; [exact D|]. split; [constructor|]. split; [lia|].
    split; [right; auto|]. split; [left; auto|]. f_equal. f_equal. rewrite Z.pow_0_r. lia.
  - assert (0 <= n).
    { clear - D. induction D as [|w k n c d D IH [X _]]; lia. }
    destruct minus; cbn [signed]; split; intros; try reflexivity; lia.
Qed.

(** ** Laying out words *)

(** Words, each followed by whitespace. *)
Definition lay (l : list (bytes * bytes)) : bytes := flat_map (fun p => fst p ++ snd p) l.

Lemma lay_out : forall l, forallb (fun p => forallb is_ws (snd p) && negb (zlen (snd p) =? 0)) l = true ->
  laid_out (map fst l) (lay l).
Proof.
  induction l as [|[w s] l IH]; intro H; [constructor|]. cbn [forallb fst snd] in H.
  apply andb_true_iff in H. destruct H as [H1 H2]. apply andb_true_iff in H1. destruct H1 as [H0 H1].
  cbn [map fst lay flat_map snd]. rewrite <- app_assoc. constructor; [|destruct s; discriminate|apply IH; exact H2].
  apply Forall_forall. rewrite forallb_forall in H0. exact H0.
Qed.

(** Words and single spaces. *)
Definition said (l : list string) : list (bytes * bytes) := map (fun w => (str w, str " ")) l.

Ltac lay_num :=
  match goal with
  | |- int_word ?z _ => split; [apply int_of_ok; vm_compute; reflexivity|vm_compute; intuition discriminate]
  | |- size_word ?z _ => split; [apply int_of_ok; vm_compute; reflexivity|vm_compute; intuition discriminate]
  | |- real_word d15 _ => exact C46_double_ex
  | |- real_word ?x ?w =>
      let z := eval vm_compute in (int_of w) in
      match z with Some ?n =>
        let H := fresh in
        destruct (int_real w n) as (m & H & M1 & M2); [apply int_of_ok; vm_compute; reflexivity|];
        exists m, (decimal n 0); split; [exact H|];
        split; [vm_compute; discriminate|]; split;
        [apply exact_closest; [vm_compute; intuition discriminate|vm_compute; discriminate|vm_compute; reflexivity]|
         first [rewrite M1 by reflexivity; reflexivity|rewrite M2 by reflexivity; reflexivity]]
      end
  | |- name_word _ _ => reflexivity
  | |- _ = _ => reflexivity
  end.
Ltac lay_words := cbn [fields map field_word]; repeat (first [apply Forall2_nil | apply Forall2_cons; [lay_num|]]).

(** ** A file *)

Definition tab : bytes := [x09].
Definition crlf : bytes := [x0d; x0a].

Definition ex_header (ascii : bool) : bytes :=
  if ascii then lay [(str "$MeshFormat", crlf); (str "4.1", tab); (str "00", str "  "); (str "+8", crlf); (str "$EndMeshFormat", crlf)]
  else str "$MeshFormat" ++ crlf ++ lay [(str "4.1", tab); (str "01", str "  "); (str "+8", crlf)] ++
       [x01; x00; x00; x00] ++ str "$EndMeshFormat" ++ crlf.

Definition one_node (tag : Z) (x : dbl) : Nodes :=
  {| n_num_blocks := 1; n_num_nodes := 1; n_min := tag; n_max := tag;
     n_blocks := [ {| nb_dim := 0; nb_tag := 5; nb_parametric := 0; nb_num := 1; nb_tags := [tag]; nb_data := [x; dm2; d15] |} ] |}.

Definition ex_group : PhysicalGroup := {| pg_dim := 0; pg_tag := -7; pg_name := str "a ""b"" c" |}.

(** A comment, nodes, names, nodes again. *)
Definition ex_secs : list sec :=
  [SOther (str "Comments"); SNodes (one_node 3 d15); SGroups [ex_group]; SNodes (one_node 4 dm2)].

Definition ex_nodes_text (ascii : bool) (tag x : string) (n : Nodes) : bytes :=
  if ascii then lay (said ["01"; "+1"; tag; tag; "0"; "5"; "-0"; "1"; tag; x; "-002"; "+.15E+01"]%string)
  else encode false (nodes_records n) ++ crlf.

Definition ex_file (ascii : bool) : bytes :=
  lay (said ["made"; "by"; "hand"]%string) ++ ex_header ascii ++
  (lay (said ["$Comments"; "no"; "$Nodes"; "here"; "$EndComments"]%string)) ++
  lay (said ["next:"]%string) ++ (str "$Nodes" ++ str " " ++ ex_nodes_text ascii "3" "+.15E+01" (one_node 3 d15) ++ str "$EndNodes" ++ crlf) ++
  lay [(str "$PhysicalNames", crlf ++ crlf); (str "+1", tab); (str "0", tab); (str "-07", str " ");
       (in_quotes (str "a ""b"" c"), crlf); (str "$EndPhysicalNames", crlf)] ++
  (str "$Nodes" ++ tab ++ ex_nodes_text ascii "+04" "-2" (one_node 4 dm2) ++ str "$EndNodes" ++ str " ").

(** ** It meets the description *)

Lemma lay_loose : forall l, forallb (fun p => forallb is_ws (snd p) && negb (zlen (snd p) =? 0)) l = true ->
  Forall (fun w => word w /\ plain w) (map fst l) -> loose (lay l).
Proof. intros l H F. exists (map fst l). split; [exact F|apply lay_out; exact H]. Qed.

Ltac ex_word := split; [discriminate|repeat constructor].
Ltac ex_loose := apply lay_loose; [reflexivity|]; cbn [map fst said]; repeat (apply Forall_cons; [split; [ex_word|discriminate]|]); apply Forall_nil.
Ltac ex_blank := first [discriminate | repeat (apply Forall_nil || (apply Forall_cons; [reflexivity|]))].

Lemma ex_header_41 : forall ascii, head_text "4.1" ascii (ex_header ascii).
Proof.
  intros []; exists crlf.
  - exists (lay [(str "4.1", tab); (str "00", str "  "); (str "+8", crlf)]), crlf.
    do 4 (split; [ex_blank|]). split; [|reflexivity].
    exists (map fst [(str "4.1", tab); (str "00", str "  "); (str "+8", crlf)]).
    split; [cbn [map fst]; lay_words|apply lay_out; reflexivity].
  - exists (lay [(str "4.1", tab); (str "01", str "  "); (str "+8", crlf)] ++ [x01; x00; x00; x00]), crlf.
    do 4 (split; [ex_blank|]). split; [|reflexivity].
    exists (lay [(str "4.1", tab); (str "01", str "  ")]), crlf, [].
    split.
    { exists (map fst [(str "4.1", tab); (str "01", str "  ")]).
      split; [cbn [map fst]; lay_words|apply lay_out; reflexivity]. }
    exists (str "+8"). split; [lay_num|].
    split; [repeat constructor; cbn [In]; tauto|]. split; [discriminate|]. split; [constructor|reflexivity].
Qed.

Lemma one_node_fields : forall tag x, List.concat (nodes_records (one_node tag x)) =
  [Size 1; Size 1; Size tag; Size tag; Int 0; Int 5; Int 0; Size 1; Size tag; Real x; Real dm2; Real d15].
Proof. reflexivity. Qed.

Lemma nodes_text_41 : forall ascii tag x n sep sep',
  Forall2 (fun (k : bytes -> Prop) w => k w) (fields (List.concat (nodes_records n)))
    (map fst (said ["01"; "+1"; tag; tag; "0"; "5"; "-0"; "1"; tag; x; "-002"; "+.15E+01"]%string)) ->
  gap sep -> blank sep' -> sep' <> [] ->
  sec_text ascii (SNodes n) (str "$Nodes" ++ [sep] ++ ex_nodes_text ascii tag x n ++ str "$EndNodes" ++ sep').
Proof.
  intros ascii tag x n sep sep' F G W N. exists [sep], (ex_nodes_text ascii tag x n), sep'.
  split; [constructor; [apply Text41P.gap_ws; exact G|constructor]|]. split; [discriminate|].
  split; [exact W|]. split; [exact N|]. split; [intros; exists sep; auto|]. split; [|reflexivity].
  destruct ascii; cbn [sec_body body_like ex_nodes_text].
  - eexists. split; [exact F|]. apply lay_out. reflexivity.
  - exists crlf. split; [ex_blank|reflexivity].
Qed.

Lemma ex_file_41 : forall ascii, file41 ascii ex_secs (ex_file ascii).
Proof.
  intro ascii. eexists. exists (ex_header ascii). eexists. exists [].
  split; [|split; [apply ex_header_41|split; [|split; [exists []; split; constructor|rewrite app_nil_r; reflexivity]]]].
  - ex_loose.
  - unfold ex_secs.
    apply (secs_cons ascii (SOther (str "Comments")) _ []).
    { exists []. split; constructor. }
    { exists (str " "), (lay (said ["no"; "$Nodes"; "here"]%string)), (str " ").
      do 4 (split; [ex_blank|]). split; [intros _ []|]. split; [|reflexivity].
      eexists. split; [|apply lay_out; reflexivity].
      cbn [map fst said]. repeat (apply Forall_cons; [split; [ex_word|discriminate]|]). apply Forall_nil. }
    apply (secs_cons ascii (SNodes (one_node 3 d15)) _ (lay (said ["next:"]%string))).
    { ex_loose. }
    { apply nodes_text_41; [|left; reflexivity|ex_blank|ex_blank]. rewrite one_node_fields. cbn [map fst said]. lay_words. }
    apply (secs_cons ascii (SGroups [ex_group]) _ []).
    { exists []. split; constructor. }
    { exists (crlf ++ crlf), (lay [(str "+1", tab); (str "0", tab); (str "-07", str " ");
       (in_quotes (str "a ""b"" c"), crlf)]), crlf.
      do 4 (split; [ex_blank|]). split; [intros _ []|]. split; [|reflexivity].
      eexists. split; [|apply lay_out; reflexivity]. cbn [map fst flat_map group_kinds app]. lay_words. }
    match goal with |- secs_text _ _ ?r => rewrite <- (app_nil_r r) end.
    apply (secs_cons ascii (SNodes (one_node 4 dm2)) [] []).
    { exists []. split; constructor. }
    { apply nodes_text_41; [|right; left; reflexivity|ex_blank|ex_blank]. rewrite one_node_fields. cbn [map fst said]. lay_words. }
    constructor.
Qed.
