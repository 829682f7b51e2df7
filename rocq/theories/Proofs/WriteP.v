(** What the writers' loops produce, and lists of values separated by
    whitespace. *)

From Verif Require Import Model.Save Proofs.BytesP Proofs.RtBase.

(** ** Sequencing *)

Lemma wseq_ok : forall a b x y, a = (x, Ok tt) -> b = (y, Ok tt) -> a +++ b = (x ++ y, Ok tt).
Proof. intros; subst; reflexivity. Qed.

Lemma wret_ok : wret = ([], Ok tt).
Proof. reflexivity. Qed.

Lemma out_ok : forall b, out b = (b, Ok tt).
Proof. reflexivity. Qed.

Lemma wlet_ok : forall A (o : outcome A) a f r, o = Ok a -> f a = r -> wlet o f = r.
Proof. intros; subst; reflexivity. Qed.

Lemma wfor_ok : forall A (l : list A) f g, (forall x, In x l -> f x = (g x, Ok tt)) ->
  wfor l f = (List.concat (map g l), Ok tt).
Proof.
  intros A l f g. induction l as [|x l IH]; intro H; [reflexivity|].
  cbn [wfor map List.concat]. apply wseq_ok; [apply H; left; reflexivity|].
  apply IH. intros; apply H; right; assumption.
Qed.

Lemma wfor_ext : forall A (l : list A) f g, (forall x, In x l -> f x = g x) -> wfor l f = wfor l g.
Proof.
  intros A l f g. induction l as [|x l IH]; intro H; [reflexivity|].
  cbn [wfor]. rewrite H by (left; reflexivity). rewrite IH; [reflexivity|].
  intros; apply H; right; assumption.
Qed.

Lemma wfor_map : forall A B (R : A -> B) l f, wfor (map R l) f = wfor l (fun x => f (R x)).
Proof. intros. induction l as [|x l IH]; cbn [map wfor]; [|rewrite IH]; reflexivity. Qed.

(** ** Indexing *)

Lemma nth_error_at : forall A (l : list A) (i : nat), 
  at_ l (Z.of_nat i) = match nth_error l i with Some x => Ok x | None => Undef OutOfBounds end.
Proof.
  intros. unfold at_. replace (Z.of_nat i <? 0) with false by (symmetry; apply Z.ltb_ge; lia).
  rewrite Nat2Z.id. reflexivity.
Qed.

Lemma at_some : forall A (l : list A) i, 0 <= i < zlen l -> exists x, at_ l i = Ok x /\ In x l.
Proof.
  intros A l i H. unfold at_. replace (i <? 0) with false by (symmetry; apply Z.ltb_ge; lia).
  destruct (nth_error l (Z.to_nat i)) as [x|] eqn:E.
  - exists x. split; [reflexivity|]. apply nth_error_In in E. exact E.
  - apply nth_error_None in E. unfold zlen in H. lia.
Qed.

Lemma at_none : forall A (l : list A) i, ~ (0 <= i < zlen l) -> at_ l i = Undef OutOfBounds.
Proof.
  intros A l i H. unfold at_. destruct (i <? 0) eqn:E; [reflexivity|].
  apply Z.ltb_ge in E. destruct (nth_error l (Z.to_nat i)) eqn:E2; [|reflexivity].
  exfalso. apply H. split; [exact E|]. unfold zlen.
  assert (nth_error l (Z.to_nat i) <> None) by congruence. apply nth_error_Some in H0. lia.
Qed.

Lemma in_iota : forall n i, In i (iota n) <-> 0 <= i < n.
Proof.
  intros n i. unfold iota. rewrite in_map_iff. split.
  - intros (k & <- & H). apply in_seq in H. lia.
  - intros H. exists (Z.to_nat i). split; [lia|]. apply in_seq. lia.
Qed.

Lemma iota_zlen : forall A (l : list A), iota (zlen l) = map Z.of_nat (seq 0 (List.length l)).
Proof. intros. unfold iota. rewrite to_nat_zlen. reflexivity. Qed.

Lemma iota_len : forall n, 0 <= n -> zlen (iota n) = n.
Proof. intros. unfold iota, zlen. rewrite map_length, seq_length. lia. Qed.

Lemma seq_at_gen : forall A (l pre : list A) (f : Z -> A -> W),
  wfor (map Z.of_nat (seq (List.length pre) (List.length l)))
       (fun i => wlet (at_ (pre ++ l) i) (f i)) =
  wfor (combine (map Z.of_nat (seq (List.length pre) (List.length l))) l) (fun p => f (fst p) (snd p)).
Proof.
  intros A l. induction l as [|x l IH]; intros pre f; [reflexivity|].
  cbn [List.length seq map wfor combine fst snd].
  rewrite nth_error_at at 1. rewrite nth_error_app2 by lia. rewrite Nat.sub_diag.
  cbn [nth_error wlet]. f_equal.
  specialize (IH (pre ++ [x]) f). rewrite app_length in IH. cbn [List.length] in IH.
  rewrite Nat.add_1_r, <- app_assoc in IH. exact IH.
Qed.

Lemma iota_at : forall A (l : list A) (f : Z -> A -> W) n, n = zlen l ->
  wfor (iota n) (fun i => wlet (at_ l i) (f i)) =
  wfor (combine (iota n) l) (fun p => f (fst p) (snd p)).
Proof. intros A l f n ->. rewrite iota_zlen. exact (seq_at_gen A l [] f). Qed.

Lemma wfor_combine : forall A B (l : list A) (l2 : list B) f, List.length l2 = List.length l ->
  wfor (combine l2 l) (fun p => f (snd p)) = wfor l f.
Proof.
  intros A B l. induction l as [|x l IH]; intros [|y l2] f H; try discriminate; [reflexivity|].
  cbn [combine wfor snd]. rewrite IH; [reflexivity|]. injection H; auto.
Qed.

(** A counted loop over all elements of a vector. *)
Lemma iota_at_all : forall A (l : list A) f n, n = zlen l ->
  wfor (iota n) (fun i => wlet (at_ l i) f) = wfor l f.
Proof.
  intros A l f n H. rewrite (iota_at A l (fun _ => f) n H). apply wfor_combine.
  subst. rewrite iota_zlen, map_length, seq_length. reflexivity.
Qed.

(** ** Rows *)

(** Values on one line. *)
Fixpoint line {A} (show : A -> bytes) (l : list A) : bytes :=
  match l with
  | [] => []
  | [x] => show x ++ endl
  | x :: l' => show x ++ sp ++ line show l'
  end.

Lemma out_doubles_line : forall {print : printer} l, out_doubles l = line print l.
Proof.
  induction l as [|x l IH]; [reflexivity|]. cbn [out_doubles line]. destruct l; [reflexivity|].
  rewrite IH. reflexivity.
Qed.

Lemma line_gen : forall A (show : A -> bytes) row (a : nat) (last : Z -> bool),
  (forall k, last k = (k + 1 =? Z.of_nat (a + List.length row))) ->
  wfor (combine (map Z.of_nat (seq a (List.length row))) row)
    (fun p => out (show (snd p) ++ (if last (fst p) then endl else sp))) = out (line show row).
Proof.
  intros A show row. induction row as [|x row IH]; intros a last H; [reflexivity|].
  cbn [List.length seq map combine wfor fst snd line].
  rewrite IH by (intro k; rewrite H; f_equal; cbn [List.length]; lia).
  rewrite H. cbn [List.length]. destruct row as [|y row].
  - cbn [List.length]. replace (Z.of_nat a + 1 =? Z.of_nat (a + 1)) with true by (symmetry; apply Z.eqb_eq; lia).
    unfold out, wseq. cbn [fst snd]. rewrite app_nil_r. reflexivity.
  - replace (Z.of_nat a + 1 =? Z.of_nat (a + S (List.length (y :: row)))) with false
      by (symmetry; apply Z.eqb_neq; cbn [List.length]; lia).
    unfold out, wseq. cbn [fst snd]. rewrite <- app_assoc. reflexivity.
Qed.

Lemma wfor_line : forall A (show : A -> bytes) row w (last : Z -> bool),
  zlen row = w -> (forall k, last k = (k + 1 =? w)) ->
  wfor (iota w) (fun k => wlet (at_ row k) (fun x => out (show x ++ (if last k then endl else sp)))) =
  out (line show row).
Proof.
  intros A show row w last Hw Hl.
  rewrite (iota_at A row (fun k x => out (show x ++ (if last k then endl else sp))) w (eq_sym Hw)).
  subst w. rewrite iota_zlen. apply (line_gen A show row 0 last). exact Hl.
Qed.

(** Row [j] of a vector with [w] columns. *)
Definition row {A} (w : Z) (l : list A) (j : Z) : list A :=
  firstn (Z.to_nat w) (skipn (Z.to_nat (j * w)) l).

Definition rows {A} (n w : Z) (l : list A) : list (list A) := map (row w l) (iota n).

Lemma row_zlen : forall A (l : list A) n w j, zlen l = n * w -> 0 <= w -> 0 <= j < n ->
  zlen (row w l j) = w.
Proof.
  intros A l n w j HL Hw Hj. unfold row, zlen in *. rewrite firstn_length, skipn_length. nia.
Qed.

Lemma nth_error_skipn : forall A (l : list A) a b, nth_error (skipn a l) b = nth_error l (a + b).
Proof.
  intros A l. induction l as [|x l IH]; intros a b.
  - rewrite skipn_nil. destruct b, a; reflexivity.
  - destruct a as [|a]; [reflexivity|]. cbn [skipn Nat.add nth_error]. apply IH.
Qed.

Lemma nth_error_firstn : forall A (l : list A) a b, (b < a)%nat -> nth_error (firstn a l) b = nth_error l b.
Proof.
  intros A l. induction l as [|x l IH]; intros a b H.
  - rewrite firstn_nil. reflexivity.
  - destruct a as [|a]; [lia|]. destruct b as [|b]; [reflexivity|]. cbn [firstn nth_error]. apply IH. lia.
Qed.

Lemma at_row : forall A (l : list A) w j k, 0 <= j -> 0 <= k < w ->
  at_ l (j * w + k) = at_ (row w l j) k.
Proof.
  intros A l w j k Hj Hk. unfold at_, row.
  replace (j * w + k <? 0) with false by (symmetry; apply Z.ltb_ge; nia).
  replace (k <? 0) with false by (symmetry; apply Z.ltb_ge; lia).
  rewrite nth_error_firstn by lia. rewrite nth_error_skipn.
  rewrite Z2Nat.inj_add by nia. reflexivity.
Qed.

(** Nested index loops are loops over rows. *)
Lemma wfor_rows : forall A (l : list A) n w (g : Z -> A -> W),
  0 <= n -> 0 <= w -> zlen l = n * w -> n * w <= two64 ->
  wfor (iota n) (fun j => wfor (iota w) (fun k => wlet (at_ l (to_size (j * w + k))) (g k))) =
  wfor (rows n w l) (fun r => wfor (iota w) (fun k => wlet (at_ r k) (g k))).
Proof.
  intros A l n w g Hn Hw HL HB. unfold rows. rewrite wfor_map.
  apply wfor_ext. intros j Hj. apply in_iota in Hj. apply wfor_ext. intros k Hk. apply in_iota in Hk.
  rewrite to_size_id by nia. rewrite at_row by lia. reflexivity.
Qed.

Lemma firstn_plus : forall A (l : list A) a b, firstn (a + b) l = firstn a l ++ firstn b (skipn a l).
Proof.
  intros A l. induction l as [|x l IH]; intros a b.
  - rewrite skipn_nil, !firstn_nil. reflexivity.
  - destruct a as [|a]; [reflexivity|]. cbn [Nat.add firstn skipn app]. rewrite IH. reflexivity.
Qed.

Lemma skipn_plus : forall A (l : list A) a b, skipn b (skipn a l) = skipn (a + b) l.
Proof.
  intros A l. induction l as [|x l IH]; intros a b.
  - rewrite !skipn_nil. reflexivity.
  - destruct a as [|a]; [reflexivity|]. cbn [Nat.add skipn]. apply IH.
Qed.

Lemma concat_rows_gen : forall A (l : list A) (w n a : nat),
  List.concat (map (fun j => firstn w (skipn (j * w) l)) (seq a n)) = firstn (n * w) (skipn (a * w) l).
Proof.
  intros A l w n. induction n as [|n IH]; intro a; [reflexivity|].
  cbn [seq map List.concat]. rewrite IH. cbn [Nat.mul]. rewrite (firstn_plus _ _ w (n * w)).
  rewrite skipn_plus. rewrite (Nat.add_comm (a * w) w). reflexivity.
Qed.

Lemma concat_rows : forall A (l : list A) n w, 0 <= n -> 0 <= w -> zlen l = n * w ->
  List.concat (rows n w l) = l.
Proof.
  intros A l n w Hn Hw HL. unfold rows, iota. rewrite map_map.
  rewrite (map_ext _ (fun j => firstn (Z.to_nat w) (skipn (j * Z.to_nat w) l))).
  - rewrite concat_rows_gen. cbn [Nat.mul skipn]. rewrite <- Z2Nat.inj_mul by lia.
    rewrite <- HL, to_nat_zlen. apply firstn_all.
  - intro j. unfold row. f_equal. f_equal. rewrite Z2Nat.inj_mul by lia. rewrite Nat2Z.id. reflexivity.
Qed.

Lemma in_rows : forall A (l : list A) n w r, In r (rows n w l) -> zlen l = n * w -> 0 <= w -> zlen r = w.
Proof.
  intros A l n w r H HL Hw. unfold rows in H. apply in_map_iff in H. destruct H as (j & <- & Hj).
  apply in_iota in Hj. eapply row_zlen; eauto.
Qed.

(** The loops of the ASCII writers over rows of values. *)
Lemma wfor_rows_lines : forall A (show : A -> bytes) (l : list A) n w (last : Z -> bool),
  0 <= n -> 0 <= w -> zlen l = n * w -> n * w <= two64 -> (forall k, last k = (k + 1 =? w)) ->
  wfor (iota n) (fun j => wfor (iota w) (fun k =>
    wlet (at_ l (to_size (j * w + k))) (fun x => out (show x ++ (if last k then endl else sp))))) =
  (List.concat (map (line show) (rows n w l)), Ok tt).
Proof.
  intros A show l n w last Hn Hw HL HB Hlast.
  rewrite (wfor_rows A l n w (fun k x => out (show x ++ (if last k then endl else sp)))) by assumption.
  apply wfor_ok. intros r Hr. rewrite wfor_line.
  - reflexivity.
  - eapply in_rows; eauto.
  - exact Hlast.
Qed.

(** ** Raw vectors *)

Lemma write_array_ok : forall v n, n = 8 * zlen v -> n <= PTRDIFF_MAX ->
  write_array 8 v (to_size n) = (List.concat (map (le 8) v), Ok tt).
Proof.
  intros v n -> H. pose proof (zlen_nonneg _ v). rewrite to_size_id by (unfold PTRDIFF_MAX, two64 in *; lia).
  unfold write_array. change (Z.of_nat 8) with 8.
  replace (PTRDIFF_MAX <? 8 * zlen v) with false by (symmetry; apply Z.ltb_ge; lia).
  replace (zlen v * 8 <? 8 * zlen v) with false by (symmetry; apply Z.ltb_ge; lia).
  rewrite Z.mul_comm, Z.div_mul by lia. rewrite to_nat_zlen, firstn_all. reflexivity.
Qed.

(** ** Values separated by whitespace *)

Inductive spaced {A} (show : A -> bytes) : list A -> bytes -> Prop :=
| spaced_nil : spaced show [] []
| spaced_cons x sep l t : ws sep -> sep <> [] -> spaced show l t ->
    spaced show (x :: l) (show x ++ sep ++ t).

Lemma spaced_app : forall A (show : A -> bytes) l1 t1 l2 t2,
  spaced show l1 t1 -> spaced show l2 t2 -> spaced show (l1 ++ l2) (t1 ++ t2).
Proof.
  intros A show l1 t1 l2 t2 H H2. induction H as [|x sep l t H1 HN H IH]; [exact H2|].
  cbn [app]. rewrite <- !app_assoc. constructor; assumption.
Qed.

Lemma spaced_line : forall A (show : A -> bytes) l, spaced show l (line show l).
Proof.
  intros A show l. induction l as [|x l IH]; [constructor|].
  cbn [line]. destruct l as [|y l].
  - rewrite <- (app_nil_r endl). constructor; [apply ws_endl|discriminate|constructor].
  - constructor; [apply ws_sp|discriminate|exact IH].
Qed.

Lemma spaced_lines : forall A (show : A -> bytes) rs,
  spaced show (List.concat rs) (List.concat (map (line show) rs)).
Proof.
  intros A show rs. induction rs as [|r rs IH]; [constructor|].
  cbn [map List.concat]. apply spaced_app; [apply spaced_line|exact IH].
Qed.

Lemma spaced_each : forall A (show : A -> bytes) l,
  spaced show l (List.concat (map (fun x => show x ++ endl) l)).
Proof.
  intros A show l. induction l as [|x l IH]; [constructor|]. cbn [map List.concat].
  rewrite <- app_assoc. constructor; [apply ws_endl|discriminate|exact IH].
Qed.

Lemma mapM_spaced : forall A B C (f : A -> M B) (show : C -> bytes) (h : C -> B) vs t xs,
  spaced show vs t -> List.length xs = List.length vs ->
  (forall x v sep, In v vs -> ws sep -> sep <> [] -> RT (f x) (show v ++ sep) (h v)) ->
  RT (mapM f xs) t (map h vs).
Proof.
  intros A B C f show h vs t xs H. revert xs.
  induction H as [|v sep l t H1 HN H IH]; intros xs HL HR; destruct xs as [|x xs]; try discriminate.
  - apply RT_ret.
  - cbn [map mapM]. rewrite app_assoc. eapply RT_bind.
    + apply HR; auto. left; reflexivity.
    + eapply RT_map.
      * apply IH; [injection HL; auto|]. intros; apply HR; auto. right; assumption.
      * reflexivity.
Qed.

(** A leading space before each value, e.g. "n a b c": the separators come first. *)
Lemma spaced_lead : forall A (show : A -> bytes) l t,
  ws t -> t <> [] ->
  exists sep t', ws sep /\ sep <> [] /\ spaced show l t' /\
  List.concat (map (fun x => sp ++ show x) l) ++ t = sep ++ t'.
Proof.
  intros A show l t Ht HN. induction l as [|x l IH].
  - exists t, []. rewrite app_nil_r. repeat split; auto. constructor.
  - destruct IH as (sep & t' & H1 & H2 & H3 & H4). cbn [map List.concat].
    exists sp, (show x ++ sep ++ t'). repeat split; [apply ws_sp|discriminate|constructor; assumption|].
    rewrite <- !app_assoc, H4. reflexivity.
Qed.
