(** Postconditions of loader computations that return normally, and
    invariants of the section loop. *)

From Verif Require Import Model.LoadMsh.

Definition post {A} (m : M A) (Q : A -> Prop) : Prop :=
  forall s a s', m s = Ok (a, s') -> Q a.

Lemma post_bind : forall A B (m : M A) (f : A -> M B) P Q,
  post m P -> (forall a, P a -> post (f a) Q) -> post (bind m f) Q.
Proof.
  intros A B m f P Q Hm Hf s b s' H. unfold bind in H.
  destruct (m s) as [[a s1]| | | |] eqn:E; try discriminate.
  exact (Hf a (Hm _ _ _ E) _ _ _ H).
Qed.

Lemma post_bind_any : forall A B (m : M A) (f : A -> M B) Q,
  (forall a, post (f a) Q) -> post (bind m f) Q.
Proof. intros A B m f Q H. apply (post_bind _ _ _ _ (fun _ => True)); [intros s a s' _; exact I|auto]. Qed.

Lemma post_weaken : forall A (m : M A) (P Q : A -> Prop),
  post m P -> (forall a, P a -> Q a) -> post m Q.
Proof. intros A m P Q H W s a s' E. apply W. exact (H _ _ _ E). Qed.

Lemma post_any : forall A (m : M A), post m (fun _ => True).
Proof. intros A m s a s' _. exact I. Qed.

Lemma post_ret : forall A (a : A) (Q : A -> Prop), Q a -> post (ret a) Q.
Proof. intros A a Q H s b s' E. injection E as <- <-. exact H. Qed.

Lemma post_throw : forall A e (Q : A -> Prop), post (throw e) Q.
Proof. intros A e Q s a s' E. discriminate. Qed.

Lemma post_undef : forall A u (Q : A -> Prop), post (undef u) Q.
Proof. intros A u Q s a s' E. discriminate. Qed.

Lemma post_lift : forall A (o : outcome A) (Q : A -> Prop),
  (forall a, o = Ok a -> Q a) -> post (lift o) Q.
Proof.
  intros A o Q H s a s' E. unfold lift in E. destruct o; try discriminate.
  injection E as <- <-. auto.
Qed.

Lemma post_use : forall A (o : option A) (Q : A -> Prop),
  (forall a, o = Some a -> Q a) -> post (use o) Q.
Proof. intros A [a|] Q H; [apply post_ret; auto|apply post_undef]. Qed.

Lemma post_op : forall A (f : istream -> A * istream) (Q : A -> Prop),
  (forall s, Q (fst (f s))) -> post (op f) Q.
Proof. intros A f Q H s a s' E. unfold op in E. injection E as E. specialize (H s). rewrite E in H. exact H. Qed.

Lemma post_massert : forall c b (Q : unit -> Prop),
  (ndebug c = true \/ b = true -> Q tt) -> post (massert c b) Q.
Proof.
  intros c b Q H s a s' E. unfold massert in E. destruct a.
  destruct (ndebug c); [auto|]. destruct b; [auto|discriminate].
Qed.

Lemma post_mapM : forall A B (f : A -> M B) (P : B -> Prop) l,
  (forall x, In x l -> post (f x) P) ->
  post (mapM f l) (fun l' => List.length l' = List.length l /\ Forall P l').
Proof.
  intros A B f P l. induction l as [|x l IH]; intros H; cbn [mapM].
  - apply post_ret. split; [reflexivity|constructor].
  - apply (post_bind _ _ _ _ P); [apply H; left; reflexivity|]. intros y Hy.
    eapply post_bind; [apply IH; intros z Hz; apply H; right; exact Hz|].
    intros ys [L F]. apply post_ret. cbn [List.length]. split; [congruence|constructor; assumption].
Qed.

Lemma post_iterM : forall S n (f : S -> M S) (P : S -> Prop),
  (forall s, P s -> post (f s) P) -> forall s, P s -> post (iterM n f s) P.
Proof.
  intros S n f P H. induction n as [|n IH]; intros s Hs; cbn [iterM].
  - apply post_ret. exact Hs.
  - apply (post_bind _ _ _ _ P); [apply H; exact Hs|exact IH].
Qed.

(** ** The section loop *)

Section Loop.
Variables (c : cfg) (I : MshSpec -> Prop).
Hypothesis Hdisp : forall buf spec, I spec -> post (dispatch c buf spec) I.

Lemma post_step : forall spec, I spec -> post (load_step c spec) I.
Proof.
  intros spec Hs s r s' E. unfold load_step in E. destruct (rd_token [] s) as [buf s1].
  destruct (negb (is_section buf)).
  - injection E as <- <-. exact Hs.
  - revert E. apply (post_bind _ _ _ _ I); [apply Hdisp; exact Hs|].
    intros sp Hsp. apply post_bind_any. intros _. apply post_ret. exact Hsp.
Qed.

Lemma load_loop_inv : forall f spec s r s', I spec -> load_loop f c spec s = Ok (r, s') -> I r.
Proof.
  induction f as [|f IH]; intros spec s r s' Hs E; cbn [load_loop] in E; [discriminate|].
  destruct (eofb s); [injection E as <- <-; exact Hs|].
  destruct (load_step c spec s) as [[sp s1]| | | |] eqn:ES; try discriminate.
  cbn [obind fst snd] in E. exact (IH _ _ _ _ (post_step _ Hs _ _ _ ES) E).
Qed.

Theorem load_msh_inv : I spec_default ->
  forall b s, load_msh c b = Ok s -> exists raw, I raw /\ post_process c raw = Ok s.
Proof.
  intros H0 b s E. unfold load_msh, load_msh_fuel in E.
  destruct (load_loop _ c spec_default (opened b)) as [[raw s1]| | | |] eqn:EL; try discriminate.
  cbn [obind fst] in E. exists raw. split; [|exact E]. exact (load_loop_inv _ _ _ _ _ H0 EL).
Qed.
End Loop.
