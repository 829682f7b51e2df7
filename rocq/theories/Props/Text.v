(** C11-C14: what text does to strings, integers and doubles. *)

From Verif Require Import Model.Save Spec.Consistent Spec.Rounding Tests.Examples
  Proofs.Final Proofs.TextP.

(** Any bytes in the name, any old contents, any leading whitespace. *)
Theorem C11_quoted : forall n old w r, Forall (fun b => is_ws b = true) w ->
  rd_quoted old (opened (w ++ quoted n ++ r)) = (n, opened r).
Proof. exact quoted_text. Qed.
Print Assumptions C11_quoted.

Theorem C12_int : forall z old w c r, int_ok z ->
  Forall (fun b => is_ws b = true) w -> is_ws c = true ->
  rd_int old (opened (w ++ show_Z z ++ c :: r)) = (z, opened (c :: r)).
Proof. exact int_text. Qed.
Print Assumptions C12_int.

Theorem C12_size : forall z old w c r, size_ok z ->
  Forall (fun b => is_ws b = true) w -> is_ws c = true ->
  rd_size old (opened (w ++ show_Z z ++ c :: r)) = (z, opened (c :: r)).
Proof. exact size_text. Qed.
Print Assumptions C12_size.

Example C12_hyp : int_ok INT_MIN /\ size_ok SIZE_MAX /\ is_ws x0a = true /\
  show_Z INT_MIN = str "-2147483648".
Proof. vm_compute. intuition discriminate. Qed.

Theorem C13_six_digits : forall x old w c r, size_ok x -> finite x -> six_digit x ->
  Forall (fun b => is_ws b = true) w -> is_ws c = true ->
  rd_double old (opened (w ++ show_double x ++ c :: r)) = (x, opened (c :: r)).
Proof. exact six_digit_text. Qed.
Print Assumptions C13_six_digits.

Example C13_hyp : size_ok dm2 /\ finite dm2 /\ six_digit dm2.
Proof. split; [vm_compute; intuition discriminate|]. split; [vm_compute; discriminate|exact dm2_six]. Qed.

Theorem C14_refuted : exists c s b s',
  consistent41 c true s /\ save_msh c s = (b, Ok tt) /\ load_msh c b = Ok s' /\
  List.concat (map nb_data (n_blocks (nodes s'))) <> List.concat (map nb_data (n_blocks (nodes s))).
Proof. exact precision_lost. Qed.
Print Assumptions C14_refuted.

(** The loss: relative error at most 1/199998 for normal numbers. *)
Theorem C14_bound : forall x old w c r, size_ok x -> finite x -> normal x ->
  Forall (fun b => is_ws b = true) w -> is_ws c = true ->
  exists y, rd_double old (opened (w ++ show_double x ++ c :: r)) = (y, opened (c :: r)) /\
    six_digits_of x y /\ (199998 * Qabs (dval y - dval x) <= Qabs (dval x))%Q.
Proof. exact double_text_error. Qed.
Print Assumptions C14_bound.

Example C14_hyp : size_ok d13 /\ finite d13 /\ normal d13.
Proof. vm_compute. intuition discriminate. Qed.
