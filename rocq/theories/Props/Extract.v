(** C59: what >> does with a number in any text. *)

From Verif Require Import Model.IStream Spec.Extract Tests.Examples Proofs.RtBase Proofs.ToldNumP Proofs.ExtractP.

(** After whitespace, the longest beginning of a numeral is taken, whatever
    follows it. *)
Theorem C59_int : forall old u c b, blank u -> is_ws c = false ->
  exists w r v failed, takes is_integer (c :: b) w r /\ int_read w v failed /\ rd_int old (opened (u ++ c :: b)) = (v, at_rest r failed).
Proof. intros. apply (num_stream _ extract_int); [exact int_takes|assumption..]. Qed.
Print Assumptions C59_int.
Theorem C59_size : forall old u c b, blank u -> is_ws c = false ->
  exists w r v failed, takes is_integer (c :: b) w r /\ size_read w v failed /\ rd_size old (opened (u ++ c :: b)) = (v, at_rest r failed).
Proof. intros. apply (num_stream _ extract_size); [exact size_takes|assumption..]. Qed.
Print Assumptions C59_size.
Theorem C59_double : forall old u c b, blank u -> is_ws c = false ->
  exists w r v failed, takes is_real (c :: b) w r /\ real_read w v failed /\ rd_double old (opened (u ++ c :: b)) = (v, at_rest r failed).
Proof. intros. apply (num_stream _ extract_double); [exact double_takes|assumption..]. Qed.
Print Assumptions C59_double.

(** This determines the result. *)
Theorem C59_determined :
  (forall P b w r w' r', takes P b w r -> takes P b w' r' -> w = w' /\ r = r') /\
  (forall w v f v' f', int_read w v f -> int_read w v' f' -> v = v' /\ f = f') /\
  (forall w v f v' f', size_read w v f -> size_read w v' f' -> v = v' /\ f = f') /\
  (forall w v f v' f', real_read w v f -> real_read w v' f' -> v = v' /\ f = f').
Proof. split; [exact takes_one|]. split; [exact int_read_one|]. split; [exact size_read_one|exact real_read_one]. Qed.
Print Assumptions C59_determined.

(** With nothing but whitespace left, or on a stream that has failed or ended,
    the variable keeps its contents. *)
Theorem C59_nothing : forall old u, blank u ->
  rd_int old (opened u) = (old, at_rest [] true) /\ rd_size old (opened u) = (old, at_rest [] true) /\ rd_double old (opened u) = (old, at_rest [] true).
Proof.
  intros old u B. assert (W : skip_ws u = []) by (induction B as [|x u X B IH]; [reflexivity|cbn [skip_ws]; rewrite X; exact IH]).
  unfold rd_int, rd_size, rd_double, rd_num, sentry. cbn [opened good eofb failb negb andb IStream.rest]. rewrite W. auto.
Qed.
Print Assumptions C59_nothing.
Theorem C59_failed : forall old s, eofb s = true \/ failb s = true ->
  let s' := {| rest := rest s; eofb := eofb s; failb := true |} in
  rd_int old s = (old, s') /\ rd_size old s = (old, s') /\ rd_double old s = (old, s').
Proof.
  intros old s H. assert (G : good s = false) by (unfold good; destruct H as [-> | ->]; [reflexivity|apply andb_false_r]).
  unfold rd_int, rd_size, rd_double, rd_num, sentry. rewrite G. auto.
Qed.
Print Assumptions C59_failed.

(** A numeral followed by something else, one that goes wrong after its
    beginning, and no numeral at all. *)
Example C59_ex1 : rd_int 5 (opened (str " 12abc")) = (12, at_rest (str "abc") false).
Proof. reflexivity. Qed.
Example C59_ex2 : rd_double 5 (opened (str " 1e+ 7")) = (0, at_rest (str " 7") true) /\ ~ is_real (str "1e+") /\ is_real (str "1").
Proof.
  split; [reflexivity|]. split.
  - destruct (C59_double 5 [] x31 (str "e+ 7")) as (w & r & v & f & T & R & E); [constructor|reflexivity|].
    cbn [app] in E. assert (E' : rd_double 5 (opened (str "1e+ 7")) = (0, at_rest (str " 7") true)) by reflexivity.
    change (x31 :: str "e+ 7") with (str "1e+ 7") in *. rewrite E' in E.
    pose proof (f_equal fst E) as Ev. pose proof (f_equal (fun p => rest (snd p)) E) as Er. pose proof (f_equal (fun p => failb (snd p)) E) as Ef.
    cbn [fst snd at_rest rest failb] in Ev, Er, Ef. subst v r f.
    destruct T as (T & _). change (str "1e+ 7") with (str "1e+" ++ str " 7") in T. apply app_inv_tail in T. subst w.
    inversion R as [|minus q IR L EV|N]; [|exact N]. destruct minus; discriminate EV.
  - exists false, (decimal (signed false (1 * 10 ^ 0 + 0)) (0 - 0)), [], (str "1"), [], [], [], 1, 1, 0, 0, 0.
    split; [reflexivity|]. split; [constructor|]. split; [|split; [constructor|]].
    + apply (digits_snoc [] 0 0 x31 1); [constructor|split; [lia|reflexivity]].
    + split; [lia|]. split; [right; auto|]. split; [left; auto|reflexivity].
Qed.
Example C59_ex3 : rd_size 5 (opened (str "$EndNodes")) = (0, at_rest (str "$EndNodes") true).
Proof. reflexivity. Qed.
(** Numbers that do not fit, and the end of the text right after a sign. *)
Example C59_ex4 : rd_int 5 (opened (str "-2147483649 1")) = (-2147483648, at_rest (str " 1") true) /\ rd_int 5 (opened (str "2147483648")) = (2147483647, at_rest [] true).
Proof. split; reflexivity. Qed.
Example C59_ex5 : rd_size 5 (opened (str "-1 ")) = (18446744073709551615, at_rest (str " ") false) /\ rd_size 5 (opened (str "-")) = (0, at_rest [] true).
Proof. split; reflexivity. Qed.
Example C59_ex6 : rd_double 5 (opened (str "-1e309 ")) = (2 ^ 63 + dbl_max, at_rest (str " ") true).
Proof. vm_compute. reflexivity. Qed.
