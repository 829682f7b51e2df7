(** The UTF-8 decoder accepts exactly the encodings of scalar values. *)

From Verif Require Import Spec.Python Proofs.BytesP.

Ltac Zify.zify_post_hook ::= idtac.

Ltac cases := repeat match goal with
  | |- context [?a <? ?b] => destruct (Z.ltb_spec a b); try lia
  | |- context [?a <=? ?b] => destruct (Z.leb_spec a b); try lia
  | |- context [?a =? ?b] => destruct (Z.eqb_spec a b); try lia
  end; try reflexivity.

Lemma b2z_range : forall c, 0 <= b2z c < 256.
Proof. intro c. destruct c; split; vm_compute; congruence || reflexivity. Qed.

Lemma enc1 : forall x, 0 <= x < 128 -> encoding x = [x] /\ scalar x.
Proof. intros x H. unfold encoding, scalar. change (2 ^ 7) with 128. split; [cases|lia]. Qed.

Lemma enc2 : forall x y, 194 <= x <= 223 -> 128 <= y <= 191 ->
  exists u, encoding u = [x; y] /\ scalar u.
Proof.
  intros x y H1 H2. exists (64 * (x - 192) + (y - 128)). unfold encoding, scalar.
  change (2 ^ 7) with 128. change (2 ^ 11) with 2048. change (2 ^ 16) with 65536.
  split; [|lia]. cases. f_equal; [|f_equal]; Z.div_mod_to_equations; lia.
Qed.

Lemma enc3 : forall x y z, 224 <= x <= 239 -> second3 x y = true -> 128 <= z <= 191 ->
  exists u, encoding u = [x; y; z] /\ scalar u.
Proof.
  intros x y z H1 H2 H3.
  assert (H : 128 <= y <= 191 /\ (x = 224 -> 160 <= y) /\ (x = 237 -> y <= 159)).
  { unfold second3 in H2. revert H2. cases; cbn [andb orb]; try discriminate; intros _; lia. }
  clear H2. exists (4096 * (x - 224) + 64 * (y - 128) + (z - 128)). unfold encoding, scalar.
  change (2 ^ 7) with 128. change (2 ^ 11) with 2048. change (2 ^ 16) with 65536.
  split; [|lia]. cases. f_equal; [|f_equal; [|f_equal]]; Z.div_mod_to_equations; lia.
Qed.

Lemma enc4 : forall x y z t, second4 x y = true -> 128 <= z <= 191 -> 128 <= t <= 191 ->
  exists u, encoding u = [x; y; z; t] /\ scalar u.
Proof.
  intros x y z t H2 H3 H4.
  assert (H : 240 <= x <= 244 /\ 128 <= y <= 191 /\ (x = 240 -> 144 <= y) /\ (x = 244 -> y <= 143)).
  { unfold second4 in H2. revert H2. cases; cbn [andb orb]; try discriminate; intros _; lia. }
  clear H2. exists (262144 * (x - 240) + 4096 * (y - 128) + 64 * (z - 128) + (t - 128)). unfold encoding, scalar.
  change (2 ^ 7) with 128. change (2 ^ 11) with 2048. change (2 ^ 16) with 65536.
  split; [|lia]. cases. f_equal; [|f_equal; [|f_equal; [|f_equal]]]; Z.div_mod_to_equations; lia.
Qed.

Lemma cont_range : forall c, cont c = true <-> 128 <= b2z c <= 191.
Proof. intro c. unfold cont. rewrite andb_true_iff, !Z.leb_le. tauto. Qed.

Lemma utf8_cons : forall u cs b, map b2z cs = encoding u -> scalar u -> utf8 b -> utf8 (cs ++ b).
Proof.
  intros u cs b E S (us & F & M). exists (u :: us). split; [constructor; assumption|].
  rewrite map_app. cbn [flat_map]. change (fun c : byte => Z.of_N (Byte.to_N c)) with b2z in *. congruence.
Qed.

Lemma ok_utf8 : forall n b, (List.length b <= n)%nat -> utf8_ok b = true -> utf8 b.
Proof.
  induction n as [|n IH]; intros b L H.
  - destruct b; [|cbn in L; lia]. exists []. split; [constructor|reflexivity].
  - destruct b as [|c r]; [exists []; split; [constructor|reflexivity]|].
    cbn [utf8_ok] in H. cbn [List.length] in L. pose proof (b2z_range c) as B.
    destruct (b2z c <? 128) eqn:E1.
    + apply Z.ltb_lt in E1. destruct (enc1 (b2z c) ltac:(lia)) as (E & S).
      apply (utf8_cons (b2z c) [c] r); [symmetry; exact E|exact S|]. apply IH; [lia|exact H].
    + destruct r as [|c1 r1]; [discriminate|]. cbn [List.length] in L.
      destruct ((194 <=? b2z c) && (b2z c <=? 223)) eqn:E2.
      * apply andb_true_iff in E2. rewrite !Z.leb_le in E2. apply andb_true_iff in H as [H1 H].
        apply cont_range in H1. destruct (enc2 (b2z c) (b2z c1)) as (u & E & S); [lia|lia|].
        apply (utf8_cons u [c; c1] r1); [symmetry; exact E|exact S|]. apply IH; [lia|exact H].
      * destruct r1 as [|c2 r2]; [discriminate|]. cbn [List.length] in L.
        destruct ((224 <=? b2z c) && (b2z c <=? 239)) eqn:E3.
        -- apply andb_true_iff in E3. rewrite !Z.leb_le in E3. apply andb_true_iff in H as [H1 H].
           apply andb_true_iff in H1 as [H1 H2]. apply cont_range in H2.
           destruct (enc3 (b2z c) (b2z c1) (b2z c2)) as (u & E & S); [lia|exact H1|lia|].
           apply (utf8_cons u [c; c1; c2] r2); [symmetry; exact E|exact S|]. apply IH; [lia|exact H].
        -- destruct r2 as [|c3 r3]; [discriminate|]. cbn [List.length] in L.
           apply andb_true_iff in H as [H1 H]. apply andb_true_iff in H1 as [H1 H3].
           apply andb_true_iff in H1 as [H1 H2]. apply cont_range in H2, H3.
           destruct (enc4 (b2z c) (b2z c1) (b2z c2) (b2z c3)) as (u & E & S); [exact H1|lia|lia|].
           apply (utf8_cons u [c; c1; c2; c3] r3); [symmetry; exact E|exact S|]. apply IH; [lia|exact H].
Qed.

Ltac yes := repeat match goal with
  | |- context [?a <? ?b] => first [rewrite (proj2 (Z.ltb_lt a b)) by lia | rewrite (proj2 (Z.ltb_ge a b)) by lia]
  | |- context [?a <=? ?b] => first [rewrite (proj2 (Z.leb_le a b)) by lia | rewrite (proj2 (Z.leb_gt a b)) by lia]
  | |- context [?a =? ?b] => first [rewrite (proj2 (Z.eqb_eq a b)) by lia | rewrite (proj2 (Z.eqb_neq a b)) by lia]
  end; try reflexivity.

Lemma second3_true : forall x y, 224 <= x <= 239 -> 128 <= y <= 191 -> (x = 224 -> 160 <= y) -> (x = 237 -> y <= 159) ->
  second3 x y = true.
Proof.
  intros x y H1 H2 H3 H4. unfold second3.
  destruct (Z.eq_dec x 224); [yes|]. destruct (Z.eq_dec x 237); [yes|].
  destruct (Z_le_gt_dec x 236); [yes|]. yes; rewrite !andb_false_r; reflexivity.
Qed.

Lemma second4_true : forall x y, 240 <= x <= 244 -> 128 <= y <= 191 -> (x = 240 -> 144 <= y) -> (x = 244 -> y <= 143) ->
  second4 x y = true.
Proof.
  intros x y H1 H2 H3 H4. unfold second4.
  destruct (Z.eq_dec x 240); [yes|]. destruct (Z.eq_dec x 244); [yes|]. yes.
Qed.

Lemma ok2 : forall c c1 b, 194 <= b2z c <= 223 -> 128 <= b2z c1 <= 191 -> utf8_ok (c :: c1 :: b) = utf8_ok b.
Proof. intros c c1 b H H1. cbn [utf8_ok]. unfold cont. yes. Qed.

Lemma ok3 : forall c c1 c2 b, 224 <= b2z c <= 239 -> second3 (b2z c) (b2z c1) = true -> 128 <= b2z c2 <= 191 ->
  utf8_ok (c :: c1 :: c2 :: b) = utf8_ok b.
Proof. intros c c1 c2 b H H1 H2. cbn [utf8_ok]. rewrite H1. unfold cont. yes. Qed.

Lemma ok4 : forall c c1 c2 c3 b, 240 <= b2z c <= 244 -> second4 (b2z c) (b2z c1) = true -> 128 <= b2z c2 <= 191 ->
  128 <= b2z c3 <= 191 -> utf8_ok (c :: c1 :: c2 :: c3 :: b) = utf8_ok b.
Proof. intros c c1 c2 c3 b H H1 H2 H3. cbn [utf8_ok]. rewrite H1. unfold cont. yes. Qed.

Lemma cons_eq : forall A (x y : A) a b, x :: a = y :: b -> x = y /\ a = b.
Proof. intros A x y a b E. split; congruence. Qed.

Lemma utf8_is_ok : forall us b, Forall scalar us -> map b2z b = flat_map encoding us -> utf8_ok b = true.
Proof.
  induction us as [|u us IH]; intros b F M.
  - destruct b; [reflexivity|discriminate].
  - inversion F as [|? ? S F']; subst. cbn [flat_map] in M. unfold scalar in S. unfold encoding in M.
    change (2 ^ 7) with 128 in M. change (2 ^ 11) with 2048 in M. change (2 ^ 16) with 65536 in M.
    destruct (Z.ltb_spec u 128); [|destruct (Z.ltb_spec u 2048); [|destruct (Z.ltb_spec u 65536)]].
    + destruct b as [|c b]; [discriminate|]. cbn [map app] in M. apply cons_eq in M as [E M].
      cbn [utf8_ok]. rewrite E. destruct (Z.ltb_spec u 128); [|lia]. exact (IH b F' M).
    + destruct b as [|c [|c1 b]]; try discriminate. cbn [map app] in M. apply cons_eq in M as [E M]. apply cons_eq in M as [E1 M].
      assert (2 <= u / 64 <= 31 /\ 0 <= u mod 64 <= 63) by (Z.div_mod_to_equations; lia).
      rewrite ok2 by lia. exact (IH b F' M).
    + destruct b as [|c [|c1 [|c2 b]]]; try discriminate. cbn [map app] in M. apply cons_eq in M as [E M]. apply cons_eq in M as [E1 M]. apply cons_eq in M as [E2 M].
      assert (A : 0 <= u / 4096 <= 15 /\ 0 <= u mod 64 <= 63 /\ 0 <= u / 64 mod 64 <= 63 /\
        (u / 4096 = 0 -> 32 <= u / 64 mod 64) /\ (u / 4096 = 13 -> u / 64 mod 64 <= 31)) by (Z.div_mod_to_equations; lia).
      rewrite ok3; [exact (IH b F' M)|lia|apply second3_true; lia|lia].
    + destruct b as [|c [|c1 [|c2 [|c3 b]]]]; try discriminate. cbn [map app] in M. apply cons_eq in M as [E M]. apply cons_eq in M as [E1 M]. apply cons_eq in M as [E2 M]. apply cons_eq in M as [E3 M].
      assert (A : 0 <= u / 262144 <= 4 /\ 0 <= u mod 64 <= 63 /\ 0 <= u / 64 mod 64 <= 63 /\ 0 <= u / 4096 mod 64 <= 63 /\
        (u / 262144 = 0 -> 16 <= u / 4096 mod 64) /\ (u / 262144 = 4 -> u / 4096 mod 64 <= 15)) by (Z.div_mod_to_equations; lia).
      rewrite ok4; [exact (IH b F' M)|lia|apply second4_true; lia|lia|lia].
Qed.

Theorem utf8_ok_iff : forall b, utf8_ok b = true <-> utf8 b.
Proof.
  intro b. split; [apply (ok_utf8 (List.length b)); lia|]. intros (us & F & M). exact (utf8_is_ok us b F M).
Qed.

(** Pieces. *)
Lemma utf8_app : forall a b, utf8 a -> utf8 b -> utf8 (a ++ b).
Proof.
  intros a b (us & F & M) (vs & G & N). exists (us ++ vs). split; [apply Forall_app; split; assumption|].
  rewrite map_app, flat_map_app. congruence.
Qed.

Definition ascii (c : byte) : Prop := b2z c < 128.

Lemma ok_ascii : forall a b, Forall ascii a -> utf8_ok (a ++ b) = utf8_ok b.
Proof.
  intros a b F. induction F as [|c a H F IH]; [reflexivity|]. cbn [app utf8_ok]. unfold ascii in H.
  rewrite (proj2 (Z.ltb_lt _ _)) by exact H. exact IH.
Qed.

(** An ASCII character cannot be inside another character. *)
Lemma ok_cut : forall n a c b, (List.length a <= n)%nat -> ascii c -> utf8_ok (a ++ c :: b) = utf8_ok a && utf8_ok b.
Proof.
  induction n as [|n IH]; intros a c b L A.
  - destruct a; [|cbn in L; lia]. apply (ok_ascii [c] b). repeat constructor. exact A.
  - assert (C : cont c = false) by (unfold cont, ascii in *; rewrite (proj2 (Z.leb_gt _ _)) by lia; reflexivity).
    assert (S3 : forall x, second3 x (b2z c) = false).
    { intro x. unfold second3, ascii in *.
      rewrite (proj2 (Z.leb_gt 160 (b2z c))), (proj2 (Z.leb_gt 128 (b2z c))) by lia.
      rewrite !andb_false_r. reflexivity. }
    assert (S4 : forall x, second4 x (b2z c) = false).
    { intro x. unfold second4, ascii in *.
      rewrite (proj2 (Z.leb_gt 144 (b2z c))), (proj2 (Z.leb_gt 128 (b2z c))) by lia.
      rewrite !andb_false_r. reflexivity. }
    destruct a as [|x [|x1 [|x2 [|x3 a]]]]; cbn [app].
    + apply (ok_ascii [c] b). repeat constructor. exact A.
    + cbn [utf8_ok]. rewrite C. destruct (b2z x <? 128); [apply (ok_ascii [c] b); repeat constructor; exact A|].
      destruct (_ && _); [reflexivity|]. destruct b as [|y b]; [reflexivity|]. rewrite S3.
      destruct (_ && _); [reflexivity|]. destruct b as [|z b]; [reflexivity|]. rewrite S4. reflexivity.
    + pose proof (IH [x1] c b ltac:(cbn in *; lia) A) as H1. cbn [app] in H1.
      pose proof (IH [] c b ltac:(cbn in *; lia) A) as H0. cbn [app] in H0.
      change (utf8_ok (x :: x1 :: c :: b)) with (if b2z x <? 128 then utf8_ok (x1 :: c :: b) else
        if (194 <=? b2z x) && (b2z x <=? 223) then cont x1 && utf8_ok (c :: b) else
        if (224 <=? b2z x) && (b2z x <=? 239) then second3 (b2z x) (b2z x1) && cont c && utf8_ok b else
        match b with [] => false | c3 :: r3 => second4 (b2z x) (b2z x1) && cont c && cont c3 && utf8_ok r3 end).
      change (utf8_ok [x; x1]) with (if b2z x <? 128 then utf8_ok [x1] else
        if (194 <=? b2z x) && (b2z x <=? 223) then cont x1 && true else false).
      rewrite H1, H0, C. destruct (b2z x <? 128); [reflexivity|].
      destruct ((194 <=? _) && _); [rewrite andb_true_r; reflexivity|].
      rewrite andb_false_r. cbn [andb]. destruct ((224 <=? _) && _); [reflexivity|]. destruct b; [reflexivity|].
      rewrite andb_false_r. reflexivity.
    + pose proof (IH [x1; x2] c b ltac:(cbn in *; lia) A) as H2. cbn [app] in H2.
      pose proof (IH [x2] c b ltac:(cbn in *; lia) A) as H1. cbn [app] in H1.
      pose proof (IH [] c b ltac:(cbn in *; lia) A) as H0. cbn [app] in H0.
      change (utf8_ok (x :: x1 :: x2 :: c :: b)) with (if b2z x <? 128 then utf8_ok (x1 :: x2 :: c :: b) else
        if (194 <=? b2z x) && (b2z x <=? 223) then cont x1 && utf8_ok (x2 :: c :: b) else
        if (224 <=? b2z x) && (b2z x <=? 239) then second3 (b2z x) (b2z x1) && cont x2 && utf8_ok (c :: b) else
        second4 (b2z x) (b2z x1) && cont x2 && cont c && utf8_ok b).
      change (utf8_ok [x; x1; x2]) with (if b2z x <? 128 then utf8_ok [x1; x2] else
        if (194 <=? b2z x) && (b2z x <=? 223) then cont x1 && utf8_ok [x2] else
        if (224 <=? b2z x) && (b2z x <=? 239) then second3 (b2z x) (b2z x1) && cont x2 && true else false).
      rewrite H2, H1, H0, C. destruct (b2z x <? 128); [reflexivity|].
      destruct ((194 <=? _) && _); [rewrite andb_assoc; reflexivity|].
      destruct ((224 <=? _) && _); [rewrite andb_true_r; reflexivity|].
      rewrite andb_false_r. reflexivity.
    + pose proof (IH (x1 :: x2 :: x3 :: a) c b ltac:(cbn in *; lia) A) as H3. cbn [app] in H3.
      pose proof (IH (x2 :: x3 :: a) c b ltac:(cbn in *; lia) A) as H2. cbn [app] in H2.
      pose proof (IH (x3 :: a) c b ltac:(cbn in *; lia) A) as H1. cbn [app] in H1.
      pose proof (IH a c b ltac:(cbn in *; lia) A) as H0. cbn [app] in H0.
      assert (U : forall r, utf8_ok (x :: x1 :: x2 :: x3 :: r) = if b2z x <? 128 then utf8_ok (x1 :: x2 :: x3 :: r) else
        if (194 <=? b2z x) && (b2z x <=? 223) then cont x1 && utf8_ok (x2 :: x3 :: r) else
        if (224 <=? b2z x) && (b2z x <=? 239) then second3 (b2z x) (b2z x1) && cont x2 && utf8_ok (x3 :: r) else
        second4 (b2z x) (b2z x1) && cont x2 && cont x3 && utf8_ok r) by reflexivity.
      rewrite !U, H3, H2, H1, H0. destruct (b2z x <? 128); [reflexivity|].
      destruct ((194 <=? _) && _); [rewrite andb_assoc; reflexivity|].
      destruct ((224 <=? _) && _); rewrite <- !andb_assoc; reflexivity.
Qed.
