(** C46: numerals in text are read as the numbers they denote. *)

From Verif Require Import Model.IStream Spec.Numerals Tests.Examples Proofs.NumeralsP.

(** Any sign, any leading zeros, any whitespace before and after. *)
Theorem C46_int : forall z t old w c r, int_word z t ->
  Forall (fun b => is_ws b = true) w -> is_ws c = true ->
  rd_int old (opened (w ++ t ++ c :: r)) = (z, opened (c :: r)).
Proof. exact int_word_text. Qed.
Print Assumptions C46_int.

Theorem C46_size : forall z t old w c r, size_word z t ->
  Forall (fun b => is_ws b = true) w -> is_ws c = true ->
  rd_size old (opened (w ++ t ++ c :: r)) = (z, opened (c :: r)).
Proof. exact size_word_text. Qed.
Print Assumptions C46_size.

(** Fixed or scientific notation with any number of digits: the closest double
    (ties to even), with the sign written. *)
Theorem C46_double : forall x t old w c r, real_word x t ->
  Forall (fun b => is_ws b = true) w -> is_ws c = true ->
  rd_double old (opened (w ++ t ++ c :: r)) = (x, opened (c :: r)).
Proof. exact real_word_text. Qed.
Print Assumptions C46_double.

(** Integers out of range. *)
Theorem C46_int_range : forall z t old w c r, integer t z -> ~ int_ok z ->
  Forall (fun b => is_ws b = true) w -> is_ws c = true ->
  rd_int old (opened (w ++ t ++ c :: r)) =
  (if z <? 0 then - 2 ^ 31 else 2 ^ 31 - 1, {| rest := c :: r; eofb := false; failb := true |}).
Proof. exact int_out_of_range. Qed.
Print Assumptions C46_int_range.

Theorem C46_size_range : forall z t old w c r, integer t z -> 2 ^ 64 <= Z.abs z ->
  Forall (fun b => is_ws b = true) w -> is_ws c = true ->
  rd_size old (opened (w ++ t ++ c :: r)) =
  (2 ^ 64 - 1, {| rest := c :: r; eofb := false; failb := true |}).
Proof. exact size_out_of_range. Qed.
Print Assumptions C46_size_range.

(** A negative tag or count is taken modulo 2^64 without any error. *)
Theorem C46_size_negative : forall z t old w c r, integer t z -> - 2 ^ 64 < z < 0 ->
  Forall (fun b => is_ws b = true) w -> is_ws c = true ->
  rd_size old (opened (w ++ t ++ c :: r)) = (z + 2 ^ 64, opened (c :: r)).
Proof. exact size_negative. Qed.
Print Assumptions C46_size_negative.

(** Words meeting the hypotheses. *)
Example C46_int_ex : int_word (-7) (str "-007").
Proof.
  split; [|vm_compute; intuition discriminate].
  exists (str "-"), true, (str "007"), 3, 7. repeat split; [constructor| |discriminate].
  apply (digits_snoc (str "00") 2 0 x37 7); [|vm_compute; intuition discriminate].
  apply (digits_snoc (str "0") 1 0 x30 0); [|vm_compute; intuition discriminate].
  apply (digits_snoc [] 0 0 x30 0); [constructor|vm_compute; intuition discriminate].
Qed.

Lemma digits_42 : digits (str "42") 2 42.
Proof.
  apply (digits_snoc (str "4") 1 4 x32 2); [|vm_compute; intuition discriminate].
  apply (digits_snoc [] 0 0 x34 4); [constructor|vm_compute; intuition discriminate].
Qed.

Example C46_size_ex : size_word 42 (str "+42").
Proof.
  split; [|vm_compute; intuition discriminate].
  exists (str "+"), false, (str "42"), 2, 42. repeat split; [constructor|apply digits_42|discriminate].
Qed.

(** 1.5 *)
Example C46_double_ex : real_word d15 (str "+.15E+01").
Proof.
  exists false, (decimal 15 (-1)). split; [|split; [vm_compute; discriminate|split; [|reflexivity]]].
  - exists (str "+"), [], (str "."), (str "15"), (str "E+01"), 0, 0, 2, 15, 1.
    split; [reflexivity|]. split; [constructor|]. split; [constructor|]. split.
    { apply (digits_snoc (str "1") 1 1 x35 5); [|vm_compute; intuition discriminate].
      apply (digits_snoc [] 0 0 x31 1); [constructor|vm_compute; intuition discriminate]. }
    split; [discriminate|]. split; [left; reflexivity|]. split; [|reflexivity].
    right. exists x45, (str "+01"). split; [reflexivity|]. split; [right; reflexivity|].
    exists (str "+"), false, (str "01"), 2, 1. repeat split; [constructor| |discriminate].
    apply (digits_snoc (str "0") 1 0 x31 1); [|vm_compute; intuition discriminate].
    apply (digits_snoc [] 0 0 x30 0); [constructor|vm_compute; intuition discriminate].
  - apply exact_closest; [vm_compute; intuition discriminate|vm_compute; discriminate|].
    vm_compute. reflexivity.
Qed.

Example C46_negative_ex : integer (str "-42") (-42) /\ - 2 ^ 64 < -42 < 0.
Proof.
  split; [|vm_compute; split; reflexivity].
  exists (str "-"), true, (str "42"), 2, 42. repeat split; [constructor|apply digits_42|discriminate].
Qed.

(** A digit and any number of zeros: out of every range. *)
Lemma digits_zeros : forall n, digits (x31 :: repeat x30 n) (Z.of_nat n + 1) (10 ^ Z.of_nat n).
Proof.
  induction n as [|n IH].
  - apply (digits_snoc [] 0 0 x31 1); [constructor|vm_compute; intuition discriminate].
  - rewrite Nat2Z.inj_succ, Z.pow_succ_r by lia.
    replace (x31 :: repeat x30 (S n)) with ((x31 :: repeat x30 n) ++ [x30]).
    2:{ cbn [repeat app]. f_equal. symmetry. apply repeat_cons. }
    replace (Z.succ (Z.of_nat n) + 1) with (Z.of_nat n + 1 + 1) by lia.
    replace (10 * 10 ^ Z.of_nat n) with (10 * 10 ^ Z.of_nat n + 0) by lia.
    apply digits_snoc; [exact IH|vm_compute; intuition discriminate].
Qed.

Example C46_range_ex : integer (str "-" ++ x31 :: repeat x30 20) (- 10 ^ 20) /\
  ~ int_ok (- 10 ^ 20) /\ 2 ^ 64 <= Z.abs (- 10 ^ 20).
Proof.
  split; [|vm_compute; intuition discriminate].
  exists (str "-"), true, (x31 :: repeat x30 20), 21, (10 ^ 20). repeat split; [constructor| |discriminate].
  apply (digits_zeros 20).
Qed.
