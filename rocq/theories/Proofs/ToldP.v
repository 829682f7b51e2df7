(** What a section loads is written in it. *)

From Verif Require Import Model.LoadMsh Spec.Told Proofs.BytesP Proofs.RtBase Proofs.Mono Proofs.Hoare Proofs.TriP Proofs.Load22P Proofs.LoadedP
  Proofs.WeightP Proofs.ToldNumP Proofs.SuffixP.

Ltac Zify.zify_post_hook ::= idtac.

(** ** Computations that read a list of things *)

(** Things written one after the other. *)
Definition glued {X} (P : list X -> bytes -> bytes -> Prop) : Prop :=
  (forall r, P [] [] r) /\ forall a b s t r, P a s (t ++ r) -> P b t r -> P (a ++ b) (s ++ t) r.

(** If the stream is still good after [m], the text read by it, after [pre], is
    what [K] says. *)
Definition tells {X A} (P : list X -> bytes -> bytes -> Prop) (pre : list X) (m : M A) (K : A -> list X) : Prop :=
  forall s a s', m s = Ok (a, s') -> good s' = true ->
    good s = true /\ exists t l, rest s = t ++ rest s' /\ P l t (rest s') /\ K a = pre ++ l.

Section Rules.
Context {X : Type} (P : list X -> bytes -> bytes -> Prop) (GL : glued P).

Lemma tells_bind_fact : forall A B (m : M A) (f : A -> M B) K1 (Q : A -> Prop) pre K,
  tells P [] m K1 -> (forall s a s', m s = Ok (a, s') -> Q a) -> (forall a, Q a -> tells P (pre ++ K1 a) (f a) K) -> tells P pre (bind m f) K.
Proof.
  intros A B m f K1 Q pre K T1 F T2 s b s' E G. unfold bind in E. destruct (m s) as [[a s1]| | | |] eqn:Em; try discriminate.
  destruct (T2 a (F _ _ _ Em) s1 b s' E G) as (G1 & t2 & l2 & E2 & P2 & K2). destruct (T1 s a s1 Em G1) as (G0 & t1 & l1 & E1 & P1 & KE).
  split; [exact G0|]. cbn [app] in KE. exists (t1 ++ t2), (l1 ++ l2). split; [rewrite E1, E2, app_assoc; reflexivity|].
  split; [apply (proj2 GL); [rewrite <- E2; exact P1|exact P2]|]. rewrite K2, KE, app_assoc. reflexivity.
Qed.
Lemma tells_bind : forall A B (m : M A) (f : A -> M B) K1 pre K,
  tells P [] m K1 -> (forall a, tells P (pre ++ K1 a) (f a) K) -> tells P pre (bind m f) K.
Proof. intros A B m f K1 pre K T1 T2. eapply (tells_bind_fact _ _ m f K1 (fun _ => True)); auto. Qed.

Lemma tells_ret : forall A (a : A) pre K, K a = pre -> tells P pre (ret a) K.
Proof.
  intros A a pre K E s b s' H G. injection H as <- <-. split; [exact G|]. exists [], []. split; [reflexivity|].
  split; [apply (proj1 GL)|]. rewrite E, app_nil_r. reflexivity.
Qed.

(** Computations that do not touch the stream. *)
Lemma tells_still : forall A B (m : M A) (f : A -> M B) (Q : A -> Prop) pre K,
  (forall s a s', m s = Ok (a, s') -> s' = s /\ Q a) -> (forall a, Q a -> tells P pre (f a) K) -> tells P pre (bind m f) K.
Proof.
  intros A B m f Q pre K S T s b s' E G. unfold bind in E. destruct (m s) as [[a s1]| | | |] eqn:Em; try discriminate.
  destruct (S _ _ _ Em) as [-> HQ]. exact (T a HQ s b s' E G).
Qed.
Lemma tells_lift : forall A B (o : outcome A) (f : A -> M B) pre K, (forall a, o = Ok a -> tells P pre (f a) K) -> tells P pre (bind (lift o) f) K.
Proof.
  intros A B o f pre K T. eapply tells_still; [|exact T]. intros s a s' E. unfold lift in E. destruct o; try discriminate. injection E as <- <-. auto.
Qed.
Lemma tells_use : forall A B (o : option A) (f : A -> M B) pre K, (forall a, o = Some a -> tells P pre (f a) K) -> tells P pre (bind (use o) f) K.
Proof.
  intros A B o f pre K T. eapply tells_still; [|exact T]. intros s a s' E. unfold use in E. destruct o; try discriminate. injection E as <- <-. auto.
Qed.
Lemma tells_massert : forall B c b (f : unit -> M B) pre K, tells P pre (f tt) K -> tells P pre (bind (massert c b) f) K.
Proof.
  intros B c b f pre K T. eapply (tells_still _ _ _ _ (fun a => a = tt)); [|intros a ->; exact T].
  intros s [] s' E. unfold massert in E. destruct (ndebug c), b; try discriminate; injection E as <-; auto.
Qed.
Lemma tells_assert : forall B c (f : unit -> M B) pre K, tells P pre (f tt) K -> tells P pre (bind (assert_good c) f) K.
Proof.
  intros B c f pre K T. eapply (tells_still _ _ _ _ (fun a => a = tt)); [|intros a ->; exact T].
  intros s [] s' E. unfold assert_good, massert in E. destruct (ndebug c), (good s); try discriminate; injection E as <-; auto.
Qed.
Lemma tells_throw : forall A e pre K, tells P pre (@throw A e) K.
Proof. intros A e pre K s a s' E. discriminate. Qed.
Lemma tells_undef : forall A e pre K, tells P pre (@undef A e) K.
Proof. intros A e pre K s a s' E. discriminate. Qed.

Lemma tells_eq : forall A (m : M A) pre K K', (forall a, K' a = K a) -> tells P pre m K -> tells P pre m K'.
Proof. intros A m pre K K' H T s a s' E G. destruct (T s a s' E G) as (G0 & t & l & X1 & X2 & X3). split; [exact G0|]. exists t, l. rewrite H. auto. Qed.

(** A computation in tail position. *)
Lemma tells_tail : forall A (m : M A) K1 pre K, tells P [] m K1 -> (forall a, K a = pre ++ K1 a) -> tells P pre m K.
Proof.
  intros A m K1 pre K T H s a s' E G. destruct (T s a s' E G) as (G0 & t & l & X1 & X2 & X3). split; [exact G0|]. exists t, l. rewrite H, X3. auto.
Qed.

Lemma mapM_length : forall A B (f : A -> M B) l s r s', mapM f l s = Ok (r, s') -> List.length r = List.length l.
Proof.
  intros A B f l. induction l as [|x l IH]; intros s r s' E; cbn [mapM] in E; [injection E as <- _; reflexivity|].
  unfold bind in E. destruct (f x s) as [[y s1]| | | |]; try discriminate. destruct (mapM f l s1) as [[ys s2]| | | |] eqn:EM; try discriminate.
  injection E as <- _. cbn [List.length]. f_equal. eapply IH. exact EM.
Qed.

Lemma tells_mapM : forall A B (f : A -> M B) K l, (forall x, tells P [] (f x) K) -> tells P [] (mapM f l) (flat_map K).
Proof.
  intros A B f K l H. induction l as [|x l IH]; cbn [mapM]; [apply tells_ret; reflexivity|].
  eapply tells_bind; [apply H|]. intro y. eapply tells_bind; [exact IH|]. intro ys. apply tells_ret. reflexivity.
Qed.
Lemma tells_map : forall A B (f : A -> M B) k l, (forall x, tells P [] (f x) (fun a => [k a])) -> tells P [] (mapM f l) (map k).
Proof.
  intros A B f k l H. eapply tells_eq; [|apply tells_mapM; exact H]. intro r. induction r as [|a r IH]; [reflexivity|]. cbn [map flat_map app]. rewrite IH. reflexivity.
Qed.
Lemma tells_fill : forall A n (f : A -> M A) k l, (forall x, tells P [] (f x) (fun a => [k a])) -> tells P [] (fill n f l) (map k).
Proof. intros A n f k l H. unfold fill. destruct (_ =? _); [apply tells_map; exact H|apply tells_undef]. Qed.

Lemma tells_sentry : forall B (f : unit -> M B) pre K, (forall a, tells P pre (f a) K) ->
  tells P pre (bind (op (fun s => let (_, s') := sentry_noskip s in (tt, s'))) f) K.
Proof.
  intros B f pre K T s b s' E G. unfold bind, op, sentry_noskip in E. destruct (good s) eqn:G0.
  - destruct (T tt s b s' E G) as (_ & X0). auto.
  - destruct (T tt _ b s' E G) as (G1 & _). unfold good in G1. cbn in G1. rewrite andb_false_r in G1. discriminate.
Qed.
Lemma tells_array : forall f k l, (forall x, tells P [] (op (f x)) (fun a => [k a])) -> tells P [] (rd_raw_array f l) (map k).
Proof. intros f k l H. unfold rd_raw_array. apply tells_sentry. intros _. apply tells_map. exact H. Qed.
Lemma tells_into : forall sz n f v k, 0 < sz -> n = sz * zlen v -> (forall x, tells P [] (op (f x)) (fun a => [k a])) ->
  tells P [] (rd_raw_into sz n f v) (map k).
Proof.
  intros sz n f v k Hs E H. unfold rd_raw_into. rewrite E, Z.ltb_irrefl. replace (sz * zlen v / sz) with (zlen v).
  2: { rewrite Z.mul_comm, Z.div_mul; [reflexivity|lia]. }
  unfold zlen at 1. rewrite Nat2Z.id, firstn_all. eapply tells_bind; [apply tells_array; exact H|]. intro l. apply tells_ret.
  unfold zlen. rewrite Nat2Z.id, skipn_all, app_nil_r. reflexivity.
Qed.
End Rules.

(** ** Reading one number or name *)

Definition reads_num {A} (f : istream -> A * istream) (k : A -> bytes -> bytes -> Prop) : Prop :=
  forall s a s', f s = (a, s') -> good s' = true -> good s = true /\ exists u w, blank u /\ k a w (rest s') /\ rest s = u ++ w ++ rest s'.

Lemma not_good_fail : forall s, good (set_fail s) = false.
Proof. intro s. unfold good. cbn [failb set_fail negb]. apply andb_false_r. Qed.

Lemma num_reads : forall A (ext : bytes -> A * bool * bytes) (k : A -> bytes -> bytes -> Prop) o,
  (forall b v r, ext b = (v, false, r) -> exists w, b = w ++ r /\ k v w r) -> reads_num (rd_num ext o) k.
Proof.
  intros A ext k o H s a s' E G. unfold rd_num in E.
  destruct (sentry_cases s) as [(G0 & N & ES)|[(G0 & N & ES)|(G0 & ES)]]; rewrite ES in E.
  - split; [exact G0|]. cbn [with_rest IStream.rest] in E. destruct (ext (skip_ws (rest s))) as [[v fl] r] eqn:EX. injection E as -> <-.
    destruct (at_end_rest r (with_rest (skip_ws (rest s)) s)) as (e & EA). cbn [with_rest] in EA. rewrite EA in *.
    destruct fl; [rewrite not_good_fail in G; discriminate|]. apply H in EX. destruct EX as (w & EW & KW).
    destruct (skip_ws_is (rest s)) as (u & B & EU). exists u, w. split; [exact B|]. split; [exact KW|]. cbn [IStream.rest]. rewrite <- EW. exact EU.
  - injection E as _ <-. discriminate.
  - injection E as _ <-. rewrite not_good_fail in G. discriminate.
Qed.
Lemma num_opt_reads : forall A (ext : bytes -> A * bool * bytes) (k : A -> bytes -> bytes -> Prop) o,
  (forall b v r, ext b = (v, false, r) -> exists w, b = w ++ r /\ k v w r) ->
  reads_num (rd_num_opt ext o) (fun o' w r => exists a, o' = Some a /\ k a w r).
Proof.
  intros A ext k o H s a s' E G. unfold rd_num_opt in E.
  destruct (sentry_cases s) as [(G0 & N & ES)|[(G0 & N & ES)|(G0 & ES)]]; rewrite ES in E.
  - split; [exact G0|]. cbn [with_rest IStream.rest] in E. destruct (ext (skip_ws (rest s))) as [[v fl] r] eqn:EX. injection E as <- <-.
    destruct (at_end_rest r (with_rest (skip_ws (rest s)) s)) as (e & EA). cbn [with_rest] in EA. rewrite EA in *.
    destruct fl; [rewrite not_good_fail in G; discriminate|]. apply H in EX. destruct EX as (w & EW & KW).
    destruct (skip_ws_is (rest s)) as (u & B & EU). exists u, w. split; [exact B|]. split; [eauto|]. cbn [IStream.rest]. rewrite <- EW. exact EU.
  - injection E as _ <-. discriminate.
  - injection E as _ <-. rewrite not_good_fail in G. discriminate.
Qed.

Lemma take_token_ends : forall b t r, take_token b = (t, r) -> ends_word r.
Proof.
  induction b as [|c b IH]; intros t r E; cbn [take_token] in E; [injection E as _ <-; exact I|].
  destruct (is_ws c) eqn:W; [injection E as _ <-; exact W|]. destruct (take_token b) as [t' r'] eqn:E'. injection E as _ <-. eapply IH. reflexivity.
Qed.
Lemma token_reads : forall o, reads_num (rd_token o) (fun t w r => word w /\ w = t /\ ends_word r).
Proof.
  intros o s a s' E G. unfold rd_token in E.
  destruct (sentry_cases s) as [(G0 & N & ES)|[(G0 & N & ES)|(G0 & ES)]]; rewrite ES in E.
  - split; [exact G0|]. cbn [with_rest IStream.rest] in E. destruct (take_token (skip_ws (rest s))) as [t r] eqn:ET. injection E as <- <-.
    destruct (at_end_rest r (with_rest (skip_ws (rest s)) s)) as (e & EA). cbn [with_rest] in EA. rewrite EA in *.
    pose proof (take_token_is _ _ _ ET) as [EW F]. pose proof (take_token_ends _ _ _ ET) as EN. destruct (skip_ws_is (rest s)) as (u & B & EU).
    exists u, t. split; [exact B|]. split; [|cbn [IStream.rest]; rewrite <- EW; exact EU]. split; [|split; [reflexivity|exact EN]].
    destruct (skip_ws (rest s)) as [|x l] eqn:EX; [congruence|]. apply skip_ws_head in EX. cbn [take_token] in ET. rewrite EX in ET.
    destruct (take_token l). injection ET as <- _. split; [discriminate|]. exact F.
  - injection E as _ <-. discriminate.
  - injection E as _ <-. rewrite not_good_fail in G. discriminate.
Qed.
Lemma quoted_reads : forall o, reads_num (rd_quoted o) name_written.
Proof.
  intros o s a s' E G. unfold rd_quoted in E.
  destruct (sentry_cases s) as [(G0 & N & ES)|[(G0 & N & ES)|(G0 & ES)]]; rewrite ES in E.
  - split; [exact G0|]. destruct (skip_ws_is (rest s)) as (u & B & EU). set (s1 := with_rest (skip_ws (rest s)) s) in *.
    assert (TK : (forall t, rest s1 <> x22 :: t) -> rd_token o s1 = (a, s') -> exists u w, blank u /\ name_written a w (rest s') /\ rest s = u ++ w ++ rest s').
    { intros NQ ET. destruct (token_reads _ _ _ _ ET G) as (_ & u2 & w & B2 & (W & -> & EN) & E2).
      assert (u2 = []).
      { destruct u2 as [|x u2]; [reflexivity|]. cbn [app] in E2. apply skip_ws_head in E2. inversion B2. congruence. }
      subst u2. cbn [app] in E2. exists u, a. split; [exact B|].
      split; [|rewrite EU; change (skip_ws (rest s)) with (rest s1); rewrite E2; reflexivity].
      right. split; [exact W|]. split; [reflexivity|]. split; [|exact EN]. intros t ->. eapply NQ. exact E2. }
    destruct (rest s1) as [|c b] eqn:EC; [apply TK; [discriminate|exact E]|]. destruct c; try (apply TK; [discriminate|exact E]).
    destruct (unquote b) as [t [r|]] eqn:EQ; [|injection E as _ <-; discriminate]. injection E as <- <-.
    apply (unquote_is (List.length b)) in EQ; [|lia]. destruct EQ as (e & EQ & UE).
    exists u, ([x22] ++ e ++ [x22]). split; [exact B|]. split; [left; exists e; auto|].
    rewrite EU. change (skip_ws (rest s)) with (rest s1). rewrite EC, EQ. cbn [with_rest IStream.rest app]. rewrite <- !app_assoc. reflexivity.
  - injection E as _ <-. discriminate.
  - injection E as _ <-. rewrite not_good_fail in G. discriminate.
Qed.

(** ** Words of given kinds *)

Lemma in_words_app : forall a b s t r, in_words a s (t ++ r) -> in_words b t r -> in_words (a ++ b) (s ++ t) r.
Proof.
  intros a b s t r H1 H2. remember (t ++ r) as q eqn:Q. induction H1 as [q|k ks u w s q B K H1 IH]; [exact H2|]. cbn [app]. rewrite <- !app_assoc.
  constructor; [exact B|rewrite <- app_assoc, <- Q; exact K|exact (IH Q)].
Qed.
Lemma in_words_one : forall (k : bytes -> bytes -> Prop) u w r, blank u -> k w r -> in_words [k] (u ++ w) r.
Proof. intros k u w r B K. rewrite <- (app_nil_r w). constructor; [exact B|exact K|constructor]. Qed.
Lemma words_glued : glued in_words.
Proof. split; [constructor|exact in_words_app]. Qed.

Definition text_numbers (l : list field) : bytes -> bytes -> Prop := in_words (map written l).
Lemma text_glued : glued text_numbers.
Proof. split; [constructor|]. intros a b s t r. unfold text_numbers. rewrite map_app. apply in_words_app. Qed.

Lemma tells_word : forall A (f : istream -> A * istream) k, reads_num f k -> tells in_words [] (op f) (fun a => [k a]).
Proof.
  intros A f k R s a s' E G. unfold op in E. injection E as E. destruct (R s a s' E G) as (G0 & u & w & B & K & EQ).
  split; [exact G0|]. exists (u ++ w), [k a]. split; [rewrite EQ, app_assoc; reflexivity|]. split; [apply in_words_one; assumption|reflexivity].
Qed.
Lemma tells_field : forall A (f : istream -> A * istream) (F : A -> field), reads_num f (fun a => written (F a)) -> tells text_numbers [] (op f) (fun a => [F a]).
Proof.
  intros A f F R s a s' E G. unfold op in E. injection E as E. destruct (R s a s' E G) as (G0 & u & w & B & K & EQ).
  split; [exact G0|]. exists (u ++ w), [F a]. split; [rewrite EQ, app_assoc; reflexivity|]. split; [apply in_words_one; assumption|reflexivity].
Qed.

(** What an optional variable holds. *)
Definition opt {X} (F : Z -> X) (o : option Z) : list X := match o with Some z => [F z] | None => [] end.

Lemma tells_word_opt : forall (f : istream -> option Z * istream) (k : Z -> bytes -> bytes -> Prop),
  reads_num f (fun o w r => exists a, o = Some a /\ k a w r) -> tells in_words [] (op f) (opt k).
Proof.
  intros f k R s a s' E G. unfold op in E. injection E as E. destruct (R s a s' E G) as (G0 & u & w & B & (z & -> & K) & EQ).
  split; [exact G0|]. exists (u ++ w), [k z]. split; [rewrite EQ, app_assoc; reflexivity|]. split; [apply in_words_one; assumption|reflexivity].
Qed.
Lemma tells_field_opt : forall (f : istream -> option Z * istream) (F : Z -> field),
  reads_num f (fun o w r => exists a, o = Some a /\ written (F a) w r) -> tells text_numbers [] (op f) (opt F).
Proof.
  intros f k R s a s' E G. unfold op in E. injection E as E. destruct (R s a s' E G) as (G0 & u & w & B & (z & -> & K) & EQ).
  split; [exact G0|]. exists (u ++ w), [k z]. split; [rewrite EQ, app_assoc; reflexivity|]. split; [apply in_words_one; assumption|reflexivity].
Qed.

Lemma w_int : forall o, tells in_words [] (op (rd_int o)) (fun a => [int_written a]).
Proof. intro. apply tells_word. apply num_reads. exact extract_int_is. Qed.
Lemma w_size : forall o, tells in_words [] (op (rd_size o)) (fun a => [size_written a]).
Proof. intro. apply tells_word. apply num_reads. exact extract_size_is. Qed.
Lemma w_double : forall o, tells in_words [] (op (rd_double o)) (fun a => [real_written a]).
Proof. intro. apply tells_word. apply num_reads. exact extract_double_is. Qed.
Lemma w_quoted : forall o, tells in_words [] (op (rd_quoted o)) (fun a => [name_written a]).
Proof. intro. apply tells_word. apply quoted_reads. Qed.
Lemma w_int_opt : forall o, tells in_words [] (op (rd_int_opt o)) (opt int_written).
Proof. intro. apply tells_word_opt. apply num_opt_reads. exact extract_int_is. Qed.
Lemma w_size_opt : forall o, tells in_words [] (op (rd_size_opt o)) (opt size_written).
Proof. intro. apply tells_word_opt. apply num_opt_reads. exact extract_size_is. Qed.

Lemma f_int : forall o, tells text_numbers [] (op (rd_int o)) (fun a => [Int a]).
Proof. intro. apply tells_field. apply num_reads. exact extract_int_is. Qed.
Lemma f_size : forall o, tells text_numbers [] (op (rd_size o)) (fun a => [Size a]).
Proof. intro. apply tells_field. apply num_reads. exact extract_size_is. Qed.
Lemma f_double : forall o, tells text_numbers [] (op (rd_double o)) (fun a => [Real a]).
Proof. intro. apply tells_field. apply num_reads. exact extract_double_is. Qed.
Lemma f_size_opt : forall o, tells text_numbers [] (op (rd_size_opt o)) (opt Size).
Proof. intro. apply tells_field_opt. apply num_opt_reads. exact extract_size_is. Qed.

(** ** Raw numbers *)

Definition raw_numbers (l : list field) (t r : bytes) : Prop := t = flat_map raw_of l.
Lemma raw_glued : glued raw_numbers.
Proof. split; [reflexivity|]. intros a b s t r -> ->. unfold raw_numbers. rewrite flat_map_app. reflexivity. Qed.

Lemma raw_is : forall old s a k s', rd_raw old s = (a, k, s') -> good s' = true ->
  good s = true /\ k = List.length old /\ List.length a = List.length old /\ rest s = a ++ rest s'.
Proof.
  intros old s a k s' E G. unfold rd_raw, sentry_noskip in E. destruct (good s) eqn:G0.
  - split; [reflexivity|]. destruct (_ <? _)%nat eqn:EL; [injection E as _ _ <-; discriminate|]. apply Nat.ltb_ge in EL.
    assert (L : List.length (firstn (List.length old) (rest s)) = List.length old) by (rewrite firstn_length in *; lia).
    injection E as <- <- <-. rewrite L. repeat split; auto. cbn [with_rest IStream.rest]. symmetry. apply firstn_skipn.
  - injection E as _ _ <-. rewrite not_good_fail in G. discriminate.
Qed.
Lemma le_unle_n : forall n b, List.length b = n -> le n (unle b) = b.
Proof. intros n b <-. apply le_unle. Qed.
Lemma le4_mod : forall x y, x mod two32 = y mod two32 -> le 4 x = le 4 y.
Proof.
  intros x y E. rewrite <- (le_unle_n 4 (le 4 x) (le_length _ _)), <- (le_unle_n 4 (le 4 y) (le_length _ _)), !unle_le4, E. reflexivity.
Qed.
Lemma le4_int : forall b, List.length b = 4%nat -> le 4 (to_int (unle b)) = b.
Proof.
  intros b L. rewrite <- (le_unle_n 4 b L) at 2. apply le4_mod. unfold to_int. cbv zeta. set (u := unle b). clearbody u.
  assert (two32 <> 0) by discriminate. destruct (_ <? _); [apply Z.mod_mod; assumption|].
  rewrite Zminus_mod, Z_mod_same_full, Z.sub_0_r, !Z.mod_mod by assumption. reflexivity.
Qed.
Lemma le4_to_size : forall t, le 4 (to_size t) = le 4 t.
Proof.
  intro t. apply le4_mod. unfold to_size. change two64 with (two32 * two32).
  rewrite Z.rem_mul_r by (discriminate || reflexivity). rewrite (Z.mul_comm two32), Z_mod_plus_full. apply Z.mod_mod. discriminate.
Qed.

Lemma r_size : forall o, tells raw_numbers [] (op (rd_raw_size o)) (fun a => [Size a]).
Proof.
  intros o s a s' E G. unfold op, rd_raw_size in E. destruct (rd_raw (le 8 o) s) as [[b k] s1] eqn:ER. injection E as <- <-.
  destruct (raw_is _ _ _ _ _ ER G) as (G0 & _ & L & EQ). rewrite le_length in L. split; [exact G0|].
  exists b, [Size (unle b)]. split; [exact EQ|]. split; [|reflexivity]. unfold raw_numbers. cbn [flat_map raw_of]. rewrite app_nil_r. symmetry. apply le_unle_n. exact L.
Qed.
Lemma r_double : forall o, tells raw_numbers [] (op (rd_raw_double o)) (fun a => [Real a]).
Proof.
  intros o s a s' E G. destruct (r_size o s a s' E G) as (G0 & t & l & EQ & PT & EL). split; [exact G0|]. exists t, [Real a]. split; [exact EQ|].
  split; [|reflexivity]. unfold raw_numbers in *. cbn [app] in EL. subst l. exact PT.
Qed.
Lemma r_int : forall o, tells raw_numbers [] (op (rd_raw_int o)) (fun a => [Int a]).
Proof.
  intros o s a s' E G. unfold op, rd_raw_int in E. destruct (rd_raw (le 4 o) s) as [[b k] s1] eqn:ER. injection E as <- <-.
  destruct (raw_is _ _ _ _ _ ER G) as (G0 & _ & L & EQ). rewrite le_length in L. split; [exact G0|].
  exists b, [Int (to_int (unle b))]. split; [exact EQ|]. split; [|reflexivity]. unfold raw_numbers. cbn [flat_map raw_of]. rewrite app_nil_r, le4_int by exact L. reflexivity.
Qed.
Lemma r_int_opt : tells raw_numbers [] (op (rd_raw_int_opt None)) (opt Int).
Proof.
  intros s a s' E G. unfold op, rd_raw_int_opt in E. destruct (rd_raw (repeat x00 4) s) as [[b k] s1] eqn:ER. injection E as <- <-.
  destruct (raw_is _ _ _ _ _ ER G) as (G0 & -> & L & EQ). rewrite repeat_length in L. split; [exact G0|].
  exists b, [Int (to_int (unle b))]. split; [exact EQ|]. split; [|reflexivity]. unfold raw_numbers. cbn [flat_map raw_of]. rewrite app_nil_r, le4_int by exact L. reflexivity.
Qed.
Lemma r_size_opt : tells raw_numbers [] (op (rd_raw_size_opt None)) (opt Size).
Proof.
  intros s a s' E G. unfold op, rd_raw_size_opt in E. destruct (rd_raw (repeat x00 8) s) as [[b k] s1] eqn:ER. injection E as <- <-.
  destruct (raw_is _ _ _ _ _ ER G) as (G0 & -> & L & EQ). rewrite repeat_length in L. split; [exact G0|].
  exists b, [Size (unle b)]. split; [exact EQ|]. split; [|reflexivity]. unfold raw_numbers. cbn [flat_map raw_of]. rewrite app_nil_r. symmetry. apply le_unle_n. exact L.
Qed.

(** One character of whitespace. *)
Lemma eat1_is : forall s s', op eat1 s = Ok (tt, s') -> good s' = true -> good s = true /\ exists u, maybe_gap u /\ rest s = u ++ rest s'.
Proof.
  intros s s' E G. unfold op, eat1 in E. injection E as E. unfold peek at 1, sentry_noskip in E. destruct (good s) eqn:G0.
  2:{ cbn [is_eaten] in E. injection E as <-. rewrite not_good_fail in G. discriminate. }
  split; [reflexivity|]. destruct (rest s) as [|c r] eqn:ER.
  - cbn [is_eaten] in E. injection E as <-. unfold good in G. cbn in G. discriminate.
  - destruct (is_eaten (Some c)) eqn:EA.
    + injection E as <-. unfold get_char, sentry_noskip in *. rewrite G0, ER in *.
      exists [c]. split.
      * right. exists c. split; [|reflexivity]. unfold gap. destruct c; try discriminate EA; cbn; auto.
      * unfold peek, sentry_noskip. change (good (with_rest r s)) with (good s). rewrite G0. cbn [with_rest IStream.rest]. destruct r; reflexivity.
    + injection E as <-. exists []. split; [left; reflexivity|]. rewrite ER. reflexivity.
Qed.
