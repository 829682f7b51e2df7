(** Which exceptions the functions of the Python module raise. *)

From Verif Require Import Model.PyCalls Spec.Blame Spec.Messages Spec.Python Proofs.BytesP Proofs.HeaderP Proofs.Mono Proofs.Suffix
  Proofs.Reach Proofs.Utf8P Proofs.PythonP Proofs.BlameP Proofs.MessageP.

Ltac Zify.zify_post_hook ::= idtac.

(** ** C strings *)

Definition solid (b : bytes) : Prop := Forall (fun x => ascii x /\ x <> x00) b.

Lemma solid_str : forall s, forallb (fun x => (b2z x <? 128) && negb (Byte.eqb x x00)) (str s) = true -> solid (str s).
Proof.
  intros s H. apply Forall_forall. intros x I. rewrite forallb_forall in H. specialize (H x I).
  apply andb_true_iff in H. destruct H as (A & B). split; [apply Z.ltb_lt; exact A|].
  intro E. subst x. discriminate.
Qed.
Lemma solid_num : forall z, solid (show_Z z).
Proof.
  assert (D : forall d, ascii (digit_chr d) /\ digit_chr d <> x00).
  { intro d. split; [apply digit_ascii|]. unfold digit_chr.
    repeat match goal with |- context [if ?b then _ else _] => destruct b end; discriminate. }
  assert (L : forall l, solid (map digit_chr l)).
  { intro l. apply Forall_forall. intros x H. apply in_map_iff in H as (d & <- & _). apply D. }
  intro z. unfold show_Z, show_nonneg. destruct (z <? 0); [constructor; [split; [reflexivity|discriminate]|]|]; apply L.
Qed.
Lemma solid_app : forall a b, solid a -> solid b -> solid (a ++ b).
Proof. intros a b A B. unfold solid. rewrite Forall_app. split; assumption. Qed.
Lemma solid_ascii : forall a, solid a -> Forall ascii a.
Proof. intros a H. apply (Forall_impl _ (fun x (h : ascii x /\ x <> x00) => proj1 h) H). Qed.

Lemma c_str_solid : forall a b, solid a -> c_str (a ++ b) = a ++ c_str b.
Proof.
  intros a b H. induction H as [|x a (_ & N) H IH]; [reflexivity|]. cbn [app]. rewrite c_str_cons by exact N. congruence.
Qed.
Lemma c_str_all : forall a, solid a -> c_str a = a.
Proof. intros a H. rewrite <- (app_nil_r a) at 1. rewrite c_str_solid by exact H. apply app_nil_r. Qed.

Lemma py_str_ok : forall b, py_str b = Some b \/ py_str b = None.
Proof. intro b. unfold py_str. destruct (utf8_ok b); auto. Qed.

Lemma raised_solid : forall m, solid m ->
  raised (UnsupportedFeature m) = PyRuntimeError m /\ raised (InvalidFormat m) = PyRuntimeError m /\
  raised (CorruptData m) = PyRuntimeError m /\ raised (RuntimeError m) = PyRuntimeError m.
Proof.
  intros m H. cbn [raised what]. rewrite (c_str_all m H), (py_ascii m (solid_ascii m H)). auto.
Qed.

Lemma ok_utf8_iff : forall b, utf8_ok b = true <-> utf8 b.
Proof.
  intro b. split; [apply (ok_utf8 (List.length b)); lia|]. intros (us & F & M). exact (utf8_is_ok us b F M).
Qed.

(** The version after an ASCII text. *)
Lemma raised_version : forall p v, solid p ->
  raised (UnsupportedFeature (p ++ v)) = (if utf8_ok (c_str v) then PyRuntimeError (p ++ c_str v) else PyUnicodeDecodeError) /\
  raised (InvalidFormat (p ++ v)) = (if utf8_ok (c_str v) then PyRuntimeError (p ++ c_str v) else PyUnicodeDecodeError).
Proof.
  intros p v H. cbn [raised what]. rewrite (c_str_solid p v H). unfold py_str.
  rewrite (ok_ascii p (c_str v) (solid_ascii p H)). destruct (utf8_ok (c_str v)); auto.
Qed.

Lemma c_str_cases : forall m, m = c_str m \/ exists r, m = c_str m ++ x00 :: r.
Proof.
  induction m as [|x m IH]; [left; reflexivity|].
  destruct (Byte.byte_eq_dec x x00) as [->|N]; [right; exists m; reflexivity|].
  rewrite c_str_cons by exact N. destruct IH as [E|(r & E)]; [left; congruence|right]. exists r. cbn [app]. congruence.
Qed.
Lemma c_str_utf8 : forall m, utf8 m -> utf8 (c_str m).
Proof.
  intros m H. destruct (c_str_cases m) as [E|(r & E)]; [rewrite <- E; exact H|].
  apply ok_utf8_iff in H. rewrite E in H. rewrite (ok_cut (List.length (c_str m))) in H by (reflexivity || lia).
  apply andb_true_iff in H. apply ok_utf8_iff. apply H.
Qed.

(** ** load_msh *)

Lemma meets_open : forall c b name spec s, meets c b name spec s -> name <> [] -> rest s <> [] -> s = opened (rest s).
Proof.
  intros c b name spec s (s0 & _ & _ & T) N R. unfold rd_token in T.
  destruct (sentry_cases s0) as [(G & M & E)|[(G & M & E)|(G & E)]]; rewrite E in T; try (injection T as <- <-; congruence).
  cbn [with_rest IStream.rest] in T. destruct (take_token (skip_ws (rest s0))) as [t r]. injection T as <- <-.
  destruct r as [|x r]; [exfalso; apply R; reflexivity|]. unfold good in G. destruct s0 as [r0 e f]. cbn in *.
  destruct e, f; try discriminate. reflexivity.
Qed.

Ltac sol := repeat first [apply solid_app | apply solid_num | apply solid_str; reflexivity].

Lemma reason_raised : forall f after w e, reason f after w e ->
  (exists t, raised e = PyRuntimeError t /\ utf8 t /\ what e = Some t) \/
  (raised e = PyUnicodeDecodeError /\ w = "$MeshFormat"%string /\
   exists u v r, after = u ++ v ++ r /\ blank u /\ word v /\ ends_word r /\ v <> str "2.2" /\ v <> str "4.1" /\ ~ utf8 (c_str v) /\
     e = UnsupportedFeature (str "Unsupported MSH version: " ++ v)).
Proof.
  assert (A : forall m e, solid m -> raised e = PyRuntimeError m -> what e = Some (c_str m) ->
    exists t, raised e = PyRuntimeError t /\ utf8 t /\ what e = Some t).
  { intros m e S R W. exists m. split; [exact R|]. split; [apply ok_utf8_iff, ascii_ok, solid_ascii, S|].
    rewrite W, (c_str_all m S). reflexivity. }
  intros f after w e R. destruct R as [u v r E U V T N2 N4|d|v V|t|Hv Ht|Hv|name].
  - assert (S : solid (str "Unsupported MSH version: ")) by (apply solid_str; reflexivity).
    destruct (raised_version _ v S) as (X & _). destruct (utf8_ok (c_str v)) eqn:K.
    + left. exists (str "Unsupported MSH version: " ++ c_str v). split; [exact X|]. split.
      * apply ok_utf8_iff. rewrite ok_ascii by (apply solid_ascii; exact S). exact K.
      * cbn [what]. rewrite c_str_solid by exact S. reflexivity.
    + right. split; [exact X|]. split; [reflexivity|]. exists u, v, r. repeat (split; [assumption|]). split; [|reflexivity].
      intro H. apply ok_utf8_iff in H. congruence.
  - left. eapply A; [|apply raised_solid|reflexivity]; sol.
  - left. eapply A; [|apply raised_solid|reflexivity]; destruct V as [->| ->]; sol.
  - left. eapply A; [|apply raised_solid|reflexivity]; sol.
  - left. eapply A; [|apply raised_solid|reflexivity]; sol.
  - left. eapply A; [|apply raised_solid|reflexivity]; sol.
  - left. eapply A; [|apply raised_solid|reflexivity]; sol.
Qed.

(** ** validate_spec *)

Definition clear (p : claim) : Prop := solid (str (snd p)).

Lemma claims_clear : forall s, Forall clear (claims s).
Proof.
  intro s.
  assert (R : forall w l k, Forall clear (row_claims s w k l)).
  { intros w l. induction l as [|x l IH]; intro k; cbn [row_claims]; [constructor|].
    rewrite Forall_app. split; [|apply IH]. destruct (k =? 0); repeat (constructor; [apply solid_str; reflexivity|]); constructor. }
  unfold claims, head_claims. rewrite !Forall_app. split; [|split].
  - repeat (constructor; [apply solid_str; reflexivity|]). constructor.
  - induction (n_blocks (nodes s)) as [|b l IH]; cbn [flat_map]; [constructor|]. rewrite Forall_app. split; [|exact IH].
    unfold node_claims. rewrite !Forall_app. split; [|split].
    + repeat (constructor; [apply solid_str; reflexivity|]). constructor.
    + induction (nb_tags b) as [|t ts IHt]; cbn [flat_map]; [constructor|]. rewrite Forall_app. split; [|exact IHt].
      repeat (constructor; [apply solid_str; reflexivity|]). constructor.
    + constructor; [|constructor]. destruct (0 <? nb_parametric b); apply solid_str; reflexivity.
  - induction (e_blocks (elements s)) as [|b l IH]; cbn [flat_map]; [constructor|]. rewrite Forall_app. split; [|exact IH].
    unfold element_claims. constructor; [apply solid_str; reflexivity|apply R].
Qed.

Lemma first_clear : forall s m, first_false (claims s) m -> solid (str m).
Proof.
  intros s m (b & P & a & E & _). pose proof (claims_clear s) as H. rewrite E in H. rewrite Forall_app in H.
  destruct H as [_ H]. inversion H; subst. assumption.
Qed.
