(** Reading single values back from text. *)

From Verif Require Import Model.Save Proofs.RtBase Proofs.ShowP Proofs.RtStep Spec.Rounding Proofs.RoundP.

Lemma rd_num_text : forall A (ext : bytes -> A * bool * bytes) old t v w c r,
  reads ext t v -> ws w -> is_ws c = true ->
  rd_num ext old (opened (w ++ t ++ c :: r)) = (v, opened (c :: r)).
Proof.
  intros A ext old t v w c r [(x & t' & -> & Hx) H] Hw Hc. unfold rd_num.
  cbn [app]. rewrite sentry_ws by assumption. unfold opened at 1. cbn [IStream.rest].
  change (x :: t' ++ c :: r) with ((x :: t') ++ c :: r). rewrite H by exact Hc.
  reflexivity.
Qed.

Lemma int_text : forall z old w c r, int_ok z -> ws w -> is_ws c = true ->
  rd_int old (opened (w ++ show_Z z ++ c :: r)) = (z, opened (c :: r)).
Proof. intros. apply rd_num_text; auto. apply reads_int; assumption. Qed.

Lemma size_text : forall z old w c r, size_ok z -> ws w -> is_ws c = true ->
  rd_size old (opened (w ++ show_Z z ++ c :: r)) = (z, opened (c :: r)).
Proof. intros. apply rd_num_text; auto. apply reads_size; assumption. Qed.

Lemma double_text : forall x old w c r, size_ok x -> finite x -> ws w -> is_ws c = true ->
  rd_double old (opened (w ++ show_double x ++ c :: r)) = (ascii_round x, opened (c :: r)).
Proof. intros. apply rd_num_text; auto. apply reads_double; [|apply finite_is_finite]; assumption. Qed.

Lemma quoted_text : forall n old w r, ws w ->
  rd_quoted old (opened (w ++ quoted n ++ r)) = (n, opened r).
Proof.
  intros n old w r Hw. unfold rd_quoted, quoted. cbn [app].
  rewrite sentry_ws by (auto; reflexivity). cbn [IStream.rest opened].
  rewrite <- app_assoc. cbn [app]. rewrite unquote_body. reflexivity.
Qed.

Lemma six_digit_fixed : forall x, size_ok x -> finite x -> six_digit x -> ascii_round x = x.
Proof.
  intros x Hx Hf (d & k & Hd & [E|(C & N & B)]).
  - exact (six_digits_exact x _ d k Hx Hf (ascii_round_six x Hx Hf) Hd E).
  - exact (six_digits_nearest x d k Hd C N B).
Qed.

Lemma six_digit_text : forall x old w c r, size_ok x -> finite x -> six_digit x ->
  ws w -> is_ws c = true ->
  rd_double old (opened (w ++ show_double x ++ c :: r)) = (x, opened (c :: r)).
Proof.
  intros x old w c r Hx Hf H6 Hw Hc. rewrite double_text by assumption.
  rewrite six_digit_fixed by assumption. reflexivity.
Qed.

Lemma double_text_error : forall x old w c r, size_ok x -> finite x -> normal x ->
  ws w -> is_ws c = true ->
  exists y, rd_double old (opened (w ++ show_double x ++ c :: r)) = (y, opened (c :: r)) /\
    six_digits_of x y /\ (199998 * Qabs (dval y - dval x) <= Qabs (dval x))%Q.
Proof.
  intros x old w c r Hx Hf Hn Hw Hc. exists (ascii_round x). split; [|split].
  - apply double_text; assumption.
  - apply ascii_round_six; assumption.
  - apply six_digits_error; assumption.
Qed.
