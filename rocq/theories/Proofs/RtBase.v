(** Round-trip predicates for readers, and the primitive readers. *)

From Verif Require Import Model.Save Proofs.BytesP.
From Verif Require Export Spec.Ranges.

(** ** Predicates *)

(** [r] turns input [t] into value [v], leaving exactly [p] of it pending,
    whatever (non-empty) follows. *)
Definition EX {A} (r : M A) (t : bytes) (v : A) (p : bytes) : Prop :=
  forall rest, rest <> [] -> r (opened (t ++ rest)) = Ok (v, opened (p ++ rest)).

Definition ws (u : bytes) : Prop := Forall (fun b => is_ws b = true) u.

(** Insensitive to leading whitespace, may leave whitespace pending. *)
Definition RT {A} (r : M A) (t : bytes) (v : A) : Prop :=
  forall u, ws u -> exists u', ws u' /\ EX r (u ++ t) v u'.

(** Same, leaving exactly a newline. *)
Definition RTe {A} (r : M A) (t : bytes) (v : A) : Prop :=
  forall u, ws u -> EX r (u ++ t) v endl.

(** Raw bytes, consumed exactly. *)
Definition RB {A} (r : M A) (t : bytes) (v : A) : Prop := EX r t v [].

Lemma ws_nil : ws [].
Proof. constructor. Qed.

Lemma ws_endl : ws endl.
Proof. repeat constructor. Qed.

Lemma ws_sp : ws sp.
Proof. repeat constructor. Qed.

Lemma ws_app : forall a b, ws a -> ws b -> ws (a ++ b).
Proof. intros; apply Forall_app; auto. Qed.

Global Hint Resolve ws_nil ws_endl ws_sp ws_app : rt.

Lemma app_nonnil_r : forall A (a b : list A), b <> [] -> a ++ b <> [].
Proof. intros A a b H E. apply app_eq_nil in E. tauto. Qed.

Lemma EX_bind : forall A B (m : M A) (f : A -> M B) t1 t2 a b p1 p2,
  EX m t1 a p1 -> EX (f a) (p1 ++ t2) b p2 -> EX (bind m f) (t1 ++ t2) b p2.
Proof.
  unfold EX, bind. intros A B m f t1 t2 a b p1 p2 H1 H2 rest Hr.
  rewrite <- app_assoc. rewrite H1 by (apply app_nonnil_r; exact Hr).
  rewrite app_assoc. apply H2. exact Hr.
Qed.

(** Steps that consume nothing. *)
Lemma EX_bind0 : forall A B (m : M A) (f : A -> M B) t a b p,
  (forall s, eofb s = false -> failb s = false -> m s = Ok (a, s)) ->
  EX (f a) t b p -> EX (bind m f) t b p.
Proof.
  unfold EX, bind. intros A B m f t a b p H1 H2 rest Hr.
  rewrite H1 by reflexivity. apply H2. exact Hr.
Qed.

Lemma EX_ret : forall A (v : A) t, EX (ret v) t v t.
Proof. unfold EX, ret. reflexivity. Qed.

Lemma RT_bind : forall A B (m : M A) (f : A -> M B) t1 t2 a b,
  RT m t1 a -> RT (f a) t2 b -> RT (bind m f) (t1 ++ t2) b.
Proof.
  intros A B m f t1 t2 a b H1 H2 u Hu.
  destruct (H1 u Hu) as (u1 & W1 & E1). destruct (H2 u1 W1) as (u2 & W2 & E2).
  exists u2. split; [exact W2|]. rewrite app_assoc. eapply EX_bind; eauto.
Qed.

Lemma RTe_bind : forall A B (m : M A) (f : A -> M B) t1 t2 a b,
  RT m t1 a -> RTe (f a) t2 b -> RTe (bind m f) (t1 ++ t2) b.
Proof.
  intros A B m f t1 t2 a b H1 H2 u Hu.
  destruct (H1 u Hu) as (u1 & W1 & E1). rewrite app_assoc. eapply EX_bind; eauto.
Qed.

Lemma RB_bind : forall A B (m : M A) (f : A -> M B) t1 t2 a b,
  RB m t1 a -> RB (f a) t2 b -> RB (bind m f) (t1 ++ t2) b.
Proof. unfold RB. intros. eapply EX_bind; eauto. Qed.

Lemma RT_bind0 : forall A B (m : M A) (f : A -> M B) t a b,
  (forall s, eofb s = false -> failb s = false -> m s = Ok (a, s)) ->
  RT (f a) t b -> RT (bind m f) t b.
Proof.
  intros A B m f t a b H1 H2 u Hu. destruct (H2 u Hu) as (u2 & W2 & E2).
  exists u2. split; [exact W2|]. eapply EX_bind0; eauto.
Qed.

Lemma RTe_bind0 : forall A B (m : M A) (f : A -> M B) t a b,
  (forall s, eofb s = false -> failb s = false -> m s = Ok (a, s)) ->
  RTe (f a) t b -> RTe (bind m f) t b.
Proof. intros A B m f t a b H1 H2 u Hu. eapply EX_bind0; eauto. Qed.

Lemma RB_bind0 : forall A B (m : M A) (f : A -> M B) t a b,
  (forall s, eofb s = false -> failb s = false -> m s = Ok (a, s)) ->
  RB (f a) t b -> RB (bind m f) t b.
Proof. unfold RB. intros. eapply EX_bind0; eauto. Qed.

Lemma RT_ret : forall A (v : A), RT (ret v) [] v.
Proof. intros A v u Hu. exists u. split; [exact Hu|]. rewrite app_nil_r. apply EX_ret. Qed.

Lemma RB_ret : forall A (v : A), RB (ret v) [] v.
Proof. intros. apply EX_ret. Qed.

Lemma RTe_RT : forall A (r : M A) t v, RTe r t v -> RT r t v.
Proof. intros A r t v H u Hu. exists endl. split; auto with rt. Qed.

(** The last step only reshuffles values. *)
Lemma RTe_map : forall A B (m : M A) (f : A -> M B) t a b,
  RTe m t a -> (forall s, eofb s = false -> failb s = false -> f a s = Ok (b, s)) ->
  RTe (bind m f) t b.
Proof.
  intros A B m f t a b H1 H2 u Hu rest Hr. unfold bind. rewrite (H1 u Hu rest Hr).
  apply H2; reflexivity.
Qed.

Lemma RT_map : forall A B (m : M A) (f : A -> M B) t a b,
  RT m t a -> (forall s, eofb s = false -> failb s = false -> f a s = Ok (b, s)) ->
  RT (bind m f) t b.
Proof.
  intros A B m f t a b H1 H2 u Hu. destruct (H1 u Hu) as (u' & W & E).
  exists u'. split; [exact W|]. intros rest Hr. unfold bind. rewrite (E rest Hr).
  apply H2; reflexivity.
Qed.

Lemma RB_map : forall A B (m : M A) (f : A -> M B) t a b,
  RB m t a -> (forall s, eofb s = false -> failb s = false -> f a s = Ok (b, s)) ->
  RB (bind m f) t b.
Proof.
  unfold RB, EX. intros A B m f t a b H1 H2 rest Hr. unfold bind. rewrite (H1 rest Hr).
  apply H2; reflexivity.
Qed.

(** Trivial steps. *)
Lemma assert_good_ok : forall c s, eofb s = false -> failb s = false ->
  assert_good c s = Ok (tt, s).
Proof.
  intros c s H1 H2. unfold assert_good, massert, good. rewrite H1, H2.
  destruct (ndebug c); reflexivity.
Qed.

Lemma massert_ok : forall c b s, b = true \/ ndebug c = true -> massert c b s = Ok (tt, s).
Proof.
  intros c b s [H|H]; unfold massert; rewrite H; [destruct (ndebug c)|]; reflexivity.
Qed.

Lemma lift_ok : forall A (o : outcome A) a s, o = Ok a -> lift o s = Ok (a, s).
Proof. intros; subst; reflexivity. Qed.

Lemma use_ok : forall A (a : A) s, use (Some a) s = Ok (a, s).
Proof. reflexivity. Qed.

(** ** mapM *)

Lemma mapM_RT : forall A B (f : A -> M B) (tvs : list (bytes * B)) (xs : list A),
  List.length xs = List.length tvs ->
  (forall x tv, In x xs -> In tv tvs -> RT (f x) (fst tv) (snd tv)) ->
  RT (mapM f xs) (List.concat (map fst tvs)) (map snd tvs).
Proof.
  induction tvs as [|tv tvs IH]; intros xs HL H; destruct xs as [|x xs]; try discriminate.
  - apply RT_ret.
  - cbn [map List.concat mapM]. eapply RT_bind.
    + apply H; left; reflexivity.
    + eapply RT_map.
      * apply IH; [injection HL; auto|]. intros; apply H; right; assumption.
      * reflexivity.
Qed.

Lemma mapM_RTe : forall A B (f : A -> M B) (tvs : list (bytes * B)) (xs : list A),
  tvs <> [] ->
  List.length xs = List.length tvs ->
  (forall x tv, In x xs -> In tv tvs -> RTe (f x) (fst tv) (snd tv)) ->
  RTe (mapM f xs) (List.concat (map fst tvs)) (map snd tvs).
Proof.
  induction tvs as [|tv tvs IH]; intros xs HN HL H; destruct xs as [|x xs]; try discriminate.
  - congruence.
  - destruct tvs as [|tv' tvs].
    + destruct xs; [|discriminate]. cbn [map List.concat mapM]. rewrite app_nil_r.
      eapply RTe_map; [apply H; left; reflexivity|]. reflexivity.
    + cbn [map List.concat mapM] in *. eapply RTe_bind.
      * apply RTe_RT. apply H; left; reflexivity.
      * eapply RTe_map.
        -- apply IH; [discriminate|injection HL; auto|]. intros; apply H; right; assumption.
        -- reflexivity.
Qed.

Lemma mapM_RB : forall A B (f : A -> M B) (tvs : list (bytes * B)) (xs : list A),
  List.length xs = List.length tvs ->
  (forall x tv, In x xs -> In tv tvs -> RB (f x) (fst tv) (snd tv)) ->
  RB (mapM f xs) (List.concat (map fst tvs)) (map snd tvs).
Proof.
  induction tvs as [|tv tvs IH]; intros xs HL H; destruct xs as [|x xs]; try discriminate.
  - apply RB_ret.
  - cbn [map List.concat mapM]. eapply RB_bind.
    + apply H; left; reflexivity.
    + eapply RB_map.
      * apply IH; [injection HL; auto|]. intros; apply H; right; assumption.
      * reflexivity.
Qed.

(** Versions for a value list with text and result functions. *)
Section Lists.
Context {A B C : Type} (f : A -> M B) (g : C -> bytes) (h : C -> B).

Lemma mapM_RT' : forall (vs : list C) (xs : list A),
  List.length xs = List.length vs ->
  (forall x v, In x xs -> In v vs -> RT (f x) (g v) (h v)) ->
  RT (mapM f xs) (List.concat (map g vs)) (map h vs).
Proof.
  intros vs xs HL H.
  pose proof (mapM_RT A B f (map (fun v => (g v, h v)) vs) xs) as Q.
  rewrite !map_map in Q. cbn [fst snd] in Q. apply Q.
  - rewrite map_length. exact HL.
  - intros x tv Hx Ht. apply in_map_iff in Ht. destruct Ht as (v & <- & Hv). apply H; assumption.
Qed.

Lemma mapM_RTe' : forall (vs : list C) (xs : list A),
  vs <> [] ->
  List.length xs = List.length vs ->
  (forall x v, In x xs -> In v vs -> RTe (f x) (g v) (h v)) ->
  RTe (mapM f xs) (List.concat (map g vs)) (map h vs).
Proof.
  intros vs xs HN HL H.
  pose proof (mapM_RTe A B f (map (fun v => (g v, h v)) vs) xs) as Q.
  rewrite !map_map in Q. cbn [fst snd] in Q. apply Q.
  - intro E. apply map_eq_nil in E. contradiction.
  - rewrite map_length. exact HL.
  - intros x tv Hx Ht. apply in_map_iff in Ht. destruct Ht as (v & <- & Hv). apply H; assumption.
Qed.

Lemma mapM_RB' : forall (vs : list C) (xs : list A),
  List.length xs = List.length vs ->
  (forall x v, In x xs -> In v vs -> RB (f x) (g v) (h v)) ->
  RB (mapM f xs) (List.concat (map g vs)) (map h vs).
Proof.
  intros vs xs HL H.
  pose proof (mapM_RB A B f (map (fun v => (g v, h v)) vs) xs) as Q.
  rewrite !map_map in Q. cbn [fst snd] in Q. apply Q.
  - rewrite map_length. exact HL.
  - intros x tv Hx Ht. apply in_map_iff in Ht. destruct Ht as (v & <- & Hv). apply H; assumption.
Qed.
End Lists.

(** ** Sentry *)

Lemma skip_ws_app : forall u b, ws u -> skip_ws (u ++ b) = skip_ws b.
Proof.
  intros u b H. induction H as [|x u Hx Hu IH]; cbn [app skip_ws]; [reflexivity|].
  rewrite Hx. exact IH.
Qed.

Lemma sentry_ws : forall u c b, ws u -> is_ws c = false ->
  sentry (opened (u ++ c :: b)) = (true, opened (c :: b)).
Proof.
  intros u c b Hu Hc. unfold sentry. cbn [good opened eofb failb rest negb andb].
  rewrite skip_ws_app by exact Hu. cbn [skip_ws]. rewrite Hc. reflexivity.
Qed.

(** ** Numbers *)

Definition starts_ws (b : bytes) : Prop :=
  match b with c :: _ => is_ws c = true | [] => False end.

Lemma starts_ws_app : forall s b, ws s -> s <> [] -> starts_ws (s ++ b).
Proof. intros s b H N. destruct s; [congruence|]. inversion H; assumption. Qed.

(** [ext] reads text [t] as [v] when followed by whitespace. *)
Definition reads {A} (ext : bytes -> A * bool * bytes) (t : bytes) (v : A) : Prop :=
  (exists c t', t = c :: t' /\ is_ws c = false) /\
  forall b, starts_ws b -> ext (t ++ b) = (v, false, b).

Lemma rd_num_EX : forall A (ext : bytes -> A * bool * bytes) old t v u sep,
  reads ext t v -> ws u -> ws sep -> sep <> [] ->
  EX (op (rd_num ext old)) (u ++ t ++ sep) v sep.
Proof.
  intros A ext old t v u sep [(c & t' & -> & Hc) H] Hu Hs Hn rest Hr.
  unfold op, rd_num. rewrite <- !app_assoc. cbn [app].
  rewrite sentry_ws by assumption. unfold opened at 1. cbn [IStream.rest].
  change (c :: t' ++ sep ++ rest) with ((c :: t') ++ (sep ++ rest)).
  rewrite H by (apply starts_ws_app; assumption).
  destruct sep; [congruence|]. reflexivity.
Qed.

Lemma rd_num_opt_EX : forall A (ext : bytes -> A * bool * bytes) old t v u sep,
  reads ext t v -> ws u -> ws sep -> sep <> [] ->
  EX (op (rd_num_opt ext old)) (u ++ t ++ sep) (Some v) sep.
Proof.
  intros A ext old t v u sep [(c & t' & -> & Hc) H] Hu Hs Hn rest Hr.
  unfold op, rd_num_opt. rewrite <- !app_assoc. cbn [app].
  rewrite sentry_ws by assumption. unfold opened at 1. cbn [IStream.rest].
  change (c :: t' ++ sep ++ rest) with ((c :: t') ++ (sep ++ rest)).
  rewrite H by (apply starts_ws_app; assumption).
  destruct sep; [congruence|]. reflexivity.
Qed.

Lemma take_digits_app : forall ds b, Forall digit ds ->
  match b with c :: _ => digit_of c = None | [] => True end ->
  take_digits (map digit_chr ds ++ b) = (ds, b).
Proof.
  intros ds b H Hb. induction H as [|d ds Hd Hds IH].
  - cbn [map app]. destruct b as [|c b]; [reflexivity|]. cbn [take_digits]. rewrite Hb. reflexivity.
  - cbn [map app take_digits]. rewrite digit_of_chr by exact Hd. rewrite IH. reflexivity.
Qed.

Lemma take_sign_digit : forall d b, digit d ->
  take_sign (digit_chr d :: b) = (false, digit_chr d :: b).
Proof.
  intros d b H. apply digit_cases in H.
  repeat (destruct H as [->|H]; [reflexivity|]). subst; reflexivity.
Qed.

Lemma starts_ws_nodigit : forall b, starts_ws b ->
  match b with c :: _ => digit_of c = None | [] => True end.
Proof. intros [|c b] H; [exact I|]. apply ws_not_digit. exact H. Qed.

Lemma show_nonneg_cons : forall n, 0 <= n ->
  exists d ds, dec_digits n = d :: ds /\ digit d /\ Forall digit ds.
Proof.
  intros n H. pose proof (dec_digits_digit n H) as F. pose proof (dec_digits_nonnil n) as N.
  destruct (dec_digits n) as [|d ds]; [congruence|]. inversion F; subst. eauto.
Qed.

Lemma reads_int : forall z, INT_MIN <= z <= INT_MAX -> reads extract_int (show_Z z) z.
Proof.
  intros z Hz. unfold show_Z. destruct (z <? 0) eqn:E.
  - apply Z.ltb_lt in E. split; [do 2 eexists; split; reflexivity|].
    intros b Hb. unfold extract_int. cbn [app take_sign]. unfold show_nonneg.
    rewrite take_digits_app by (try apply dec_digits_digit; try apply starts_ws_nodigit; auto; lia).
    destruct (show_nonneg_cons (-z)) as (d & ds & Ed & _ & _); [lia|]. rewrite Ed. rewrite <- Ed.
    rewrite dec_digits_val by lia.
    replace (- - z) with z by lia.
    replace (z <? INT_MIN) with false by (symmetry; apply Z.ltb_ge; lia).
    replace (INT_MAX <? z) with false by (symmetry; apply Z.ltb_ge; lia). reflexivity.
  - apply Z.ltb_ge in E. unfold show_nonneg.
    destruct (show_nonneg_cons z) as (d & ds & Ed & Hd & Hds); [lia|].
    split.
    + rewrite Ed. cbn [map]. do 2 eexists. split; [reflexivity|]. apply digit_not_ws.
    + intros b Hb. unfold extract_int. rewrite Ed. cbn [map app].
      rewrite take_sign_digit by exact Hd.
      change (digit_chr d :: map digit_chr ds ++ b) with (map digit_chr (d :: ds) ++ b).
      rewrite <- Ed.
      rewrite take_digits_app by (try apply dec_digits_digit; try apply starts_ws_nodigit; auto; lia).
      rewrite Ed. rewrite <- Ed. rewrite dec_digits_val by lia.
      replace (z <? INT_MIN) with false by (symmetry; apply Z.ltb_ge; lia).
      replace (INT_MAX <? z) with false by (symmetry; apply Z.ltb_ge; lia). reflexivity.
Qed.

Lemma reads_size : forall z, 0 <= z < two64 -> reads extract_size (show_Z z) z.
Proof.
  intros z Hz. unfold show_Z.
  replace (z <? 0) with false by (symmetry; apply Z.ltb_ge; lia). unfold show_nonneg.
  destruct (show_nonneg_cons z) as (d & ds & Ed & Hd & Hds); [lia|].
  split.
  + rewrite Ed. cbn [map]. do 2 eexists. split; [reflexivity|]. apply digit_not_ws.
  + intros b Hb. unfold extract_size. rewrite Ed. cbn [map app].
    rewrite take_sign_digit by exact Hd.
    change (digit_chr d :: map digit_chr ds ++ b) with (map digit_chr (d :: ds) ++ b).
    rewrite <- Ed.
    rewrite take_digits_app by (try apply dec_digits_digit; try apply starts_ws_nodigit; auto; lia).
    rewrite Ed. rewrite <- Ed. rewrite dec_digits_val by lia.
    replace (SIZE_MAX <? z) with false; [reflexivity|].
    symmetry. apply Z.ltb_ge. unfold SIZE_MAX, two64 in *. lia.
Qed.

Section Num.
Context {A : Type} (ext : bytes -> A * bool * bytes).

Lemma rd_num_RT : forall old t v sep, reads ext t v -> ws sep -> sep <> [] ->
  RT (op (rd_num ext old)) (t ++ sep) v.
Proof. intros old t v sep H Hs Hn u Hu. exists sep. split; [exact Hs|]. apply rd_num_EX; assumption. Qed.

Lemma rd_num_RTe : forall old t v, reads ext t v -> RTe (op (rd_num ext old)) (t ++ endl) v.
Proof. intros old t v H u Hu. apply rd_num_EX; auto with rt. discriminate. Qed.

Lemma rd_num_opt_RT : forall old t v sep, reads ext t v -> ws sep -> sep <> [] ->
  RT (op (rd_num_opt ext old)) (t ++ sep) (Some v).
Proof. intros old t v sep H Hs Hn u Hu. exists sep. split; [exact Hs|]. apply rd_num_opt_EX; assumption. Qed.

Lemma rd_num_opt_RTe : forall old t v, reads ext t v ->
  RTe (op (rd_num_opt ext old)) (t ++ endl) (Some v).
Proof. intros old t v H u Hu. apply rd_num_opt_EX; auto with rt. discriminate. Qed.
End Num.

Lemma rd_int_RT : forall old z sep, int_ok z -> ws sep -> sep <> [] ->
  RT (op (rd_int old)) (show_Z z ++ sep) z.
Proof. intros. apply rd_num_RT; auto. apply reads_int; assumption. Qed.

Lemma rd_size_RT : forall old z sep, size_ok z -> ws sep -> sep <> [] ->
  RT (op (rd_size old)) (show_Z z ++ sep) z.
Proof. intros. apply rd_num_RT; auto. apply reads_size; assumption. Qed.

Lemma rd_int_RTe : forall old z, int_ok z -> RTe (op (rd_int old)) (show_Z z ++ endl) z.
Proof. intros. apply rd_num_RTe; auto. apply reads_int; assumption. Qed.

Lemma rd_size_RTe : forall old z, size_ok z -> RTe (op (rd_size old)) (show_Z z ++ endl) z.
Proof. intros. apply rd_num_RTe; auto. apply reads_size; assumption. Qed.

Lemma rd_int_opt_RT : forall old z sep, int_ok z -> ws sep -> sep <> [] ->
  RT (op (rd_int_opt old)) (show_Z z ++ sep) (Some z).
Proof. intros. apply rd_num_opt_RT; auto. apply reads_int; assumption. Qed.

Lemma rd_size_opt_RT : forall old z sep, size_ok z -> ws sep -> sep <> [] ->
  RT (op (rd_size_opt old)) (show_Z z ++ sep) (Some z).
Proof. intros. apply rd_num_opt_RT; auto. apply reads_size; assumption. Qed.

Lemma rd_int_opt_RTe : forall old z, int_ok z -> RTe (op (rd_int_opt old)) (show_Z z ++ endl) (Some z).
Proof. intros. apply rd_num_opt_RTe; auto. apply reads_int; assumption. Qed.

Lemma rd_size_opt_RTe : forall old z, size_ok z -> RTe (op (rd_size_opt old)) (show_Z z ++ endl) (Some z).
Proof. intros. apply rd_num_opt_RTe; auto. apply reads_size; assumption. Qed.

(** ** Tokens *)

Definition token (t : bytes) : Prop := t <> [] /\ Forall (fun b => is_ws b = false) t.

Lemma take_token_app : forall t b, Forall (fun b => is_ws b = false) t -> starts_ws b ->
  take_token (t ++ b) = (t, b).
Proof.
  intros t b H Hb. induction H as [|c t Hc Ht IH]; cbn [app].
  - destruct b as [|c b]; [contradiction|]. cbn [take_token]. rewrite Hb. reflexivity.
  - cbn [take_token]. rewrite Hc, IH. reflexivity.
Qed.

Lemma rd_token_EX : forall old t u sep, token t -> ws u -> ws sep -> sep <> [] ->
  EX (op (rd_token old)) (u ++ t ++ sep) t sep.
Proof.
  intros old t u sep [Hn Ht] Hu Hs Hsn rest Hr.
  destruct t as [|c t]; [congruence|]. inversion Ht as [|? ? Hc Ht' ]; subst.
  unfold op, rd_token. rewrite <- !app_assoc. cbn [app].
  rewrite sentry_ws by assumption. cbn [IStream.rest opened].
  change (c :: t ++ sep ++ rest) with ((c :: t) ++ (sep ++ rest)).
  rewrite take_token_app; [|assumption|apply starts_ws_app; assumption].
  destruct sep; [congruence|]. reflexivity.
Qed.

Lemma rd_token_RT : forall old t sep, token t -> ws sep -> sep <> [] ->
  RT (op (rd_token old)) (t ++ sep) t.
Proof. intros old t sep H Hs Hn u Hu. exists sep. split; [exact Hs|]. apply rd_token_EX; assumption. Qed.

(** ** Quoted strings *)

Lemma unquote_body : forall s b, unquote (quote_body s ++ x22 :: b) = (s, Some b).
Proof.
  induction s as [|c s IH]; intro b; [reflexivity|].
  cbn [quote_body]. destruct (Byte.eqb c x22) eqn:E1.
  - apply byte_eqb_eq in E1. subst. cbn [orb app unquote]. rewrite IH. reflexivity.
  - destruct (Byte.eqb c x5c) eqn:E2.
    + apply byte_eqb_eq in E2. subst. cbn [orb app unquote]. rewrite IH. reflexivity.
    + cbn [orb app].
      assert (Q : unquote (c :: quote_body s ++ x22 :: b) =
                  let (t, r) := unquote (quote_body s ++ x22 :: b) in (c :: t, r)).
      { destruct c; try reflexivity; discriminate. }
      rewrite Q, IH. reflexivity.
Qed.

Lemma rd_quoted_EX : forall old s u, ws u -> EX (op (rd_quoted old)) (u ++ quoted s) s [].
Proof.
  intros old s u Hu rest Hr. unfold op, rd_quoted, quoted.
  rewrite <- !app_assoc. cbn [app]. rewrite sentry_ws by (auto; reflexivity).
  cbn [IStream.rest opened]. rewrite <- app_assoc. cbn [app]. rewrite unquote_body. reflexivity.
Qed.

Lemma rd_quoted_RT : forall old s sep, ws sep -> RT (op (rd_quoted old)) (quoted s ++ sep) s.
Proof.
  intros old s sep Hs u Hu. exists sep. split; [exact Hs|]. intros rest Hr.
  rewrite app_assoc, <- app_assoc. rewrite rd_quoted_EX by (auto; apply app_nonnil_r; exact Hr).
  reflexivity.
Qed.

Lemma rd_quoted_RTe : forall old s, RTe (op (rd_quoted old)) (quoted s ++ endl) s.
Proof.
  intros old s u Hu rest Hr.
  rewrite app_assoc, <- app_assoc. rewrite rd_quoted_EX by (auto; apply app_nonnil_r; exact Hr).
  reflexivity.
Qed.

(** ** Raw bytes *)

Lemma rd_raw_app : forall old t rest, List.length t = List.length old ->
  rd_raw old (opened (t ++ rest)) = (t, List.length t, opened rest).
Proof.
  intros old t rest H. unfold rd_raw, sentry_noskip.
  cbn [good opened eofb failb IStream.rest negb andb].
  rewrite <- H. rewrite firstn_app, Nat.sub_diag, firstn_all. cbn [firstn]. rewrite app_nil_r.
  rewrite Nat.ltb_irrefl. rewrite skipn_app, Nat.sub_diag, skipn_all. reflexivity.
Qed.

Lemma rd_raw_size_RB : forall old z, size_ok z -> RB (op (rd_raw_size old)) (le 8 z) z.
Proof.
  intros old z H rest Hr. unfold op, rd_raw_size.
  rewrite rd_raw_app by (rewrite !le_length; reflexivity). rewrite unle_le8 by exact H. reflexivity.
Qed.

Lemma rd_raw_double_RB : forall old z, size_ok z -> RB (op (rd_raw_double old)) (le 8 z) z.
Proof. exact rd_raw_size_RB. Qed.

Lemma rd_raw_int_RB : forall old z, int_ok z -> RB (op (rd_raw_int old)) (le 4 z) z.
Proof.
  intros old z H rest Hr. unfold op, rd_raw_int.
  rewrite rd_raw_app by (rewrite !le_length; reflexivity). rewrite to_int_le4 by exact H. reflexivity.
Qed.

(** Any value: truncated to an int. *)
Lemma rd_raw_int_RB_any : forall old z, RB (op (rd_raw_int old)) (le 4 z) (to_int z).
Proof.
  intros old z rest Hr. unfold op, rd_raw_int.
  rewrite rd_raw_app by (rewrite !le_length; reflexivity). rewrite unle_le4, to_int_mod. reflexivity.
Qed.

Lemma rd_raw_int_opt_RB_any : forall old z, RB (op (rd_raw_int_opt old)) (le 4 z) (Some (to_int z)).
Proof.
  intros old z rest Hr. unfold op, rd_raw_int_opt. destruct old as [v|].
  - unfold rd_raw_int. rewrite rd_raw_app by (rewrite !le_length; reflexivity).
    rewrite unle_le4, to_int_mod. reflexivity.
  - rewrite rd_raw_app by (rewrite le_length, repeat_length; reflexivity).
    rewrite le_length. change (4 =? 4)%nat with true. cbn iota.
    rewrite unle_le4, to_int_mod. reflexivity.
Qed.

Lemma rd_raw_int_opt_RB : forall old z, int_ok z -> RB (op (rd_raw_int_opt old)) (le 4 z) (Some z).
Proof.
  intros old z H. rewrite <- (to_int_id z H) at 2. apply rd_raw_int_opt_RB_any.
Qed.

Lemma rd_raw_size_opt_RB : forall old z, size_ok z ->
  RB (op (rd_raw_size_opt old)) (le 8 z) (Some z).
Proof.
  intros old z H rest Hr. unfold op, rd_raw_size_opt. destruct old as [v|].
  - unfold rd_raw_size. rewrite rd_raw_app by (rewrite !le_length; reflexivity).
    rewrite unle_le8 by exact H. reflexivity.
  - rewrite rd_raw_app by (rewrite le_length, repeat_length; reflexivity).
    rewrite le_length. change (8 =? 8)%nat with true. cbn iota.
    rewrite unle_le8 by exact H. reflexivity.
Qed.

Lemma rd_raw_array_RB : forall f k olds vs,
  List.length olds = List.length vs ->
  (forall o v, In v vs -> RB (op (f o)) (le k v) v) ->
  RB (rd_raw_array f olds) (List.concat (map (le k) vs)) vs.
Proof.
  intros f k olds vs HL H. unfold rd_raw_array.
  eapply RB_bind0 with (a := tt).
  - intros s H1 H2. unfold op, sentry_noskip, good. rewrite H1, H2. reflexivity.
  - rewrite <- (map_id vs) at 2. apply mapM_RB'; auto.
Qed.

Lemma rd_raw_into_full : forall sz n f v s, 0 < sz -> n = sz * zlen v -> rd_raw_into sz n f v s = rd_raw_array f v s.
Proof.
  intros sz n f v s Hsz ->. unfold rd_raw_into. rewrite Z.ltb_irrefl.
  replace (sz * zlen v / sz) with (zlen v) by (rewrite Z.mul_comm, Z.div_mul; lia).
  unfold zlen. rewrite Nat2Z.id, firstn_all, skipn_all. unfold bind.
  destruct (rd_raw_array f v s) as [[l s']| | | |]; try reflexivity. cbn [ret]. rewrite app_nil_r. reflexivity.
Qed.

(** ** eat_white_space(in, 1) *)

Lemma eat1_EX : forall t, t <> [] -> EX (op eat1) (endl ++ t) tt t.
Proof.
  intros t Ht rest Hr. unfold op, eat1, endl. cbn [app]. unfold peek at 1, sentry_noskip.
  cbn [good opened eofb failb IStream.rest negb andb is_eaten].
  unfold get_char, sentry_noskip. cbn [good opened eofb failb IStream.rest negb andb].
  unfold peek, sentry_noskip, good. cbn [with_rest opened eofb failb IStream.rest negb andb].
  destruct t as [|c t]; [congruence|]. reflexivity.
Qed.

Lemma eat1_EX' : EX (op eat1) endl tt [].
Proof.
  intros rest Hr. unfold op, eat1, endl. cbn [app]. unfold peek at 1, sentry_noskip.
  cbn [good opened eofb failb IStream.rest negb andb is_eaten].
  unfold get_char, sentry_noskip. cbn [good opened eofb failb IStream.rest negb andb].
  unfold peek, sentry_noskip, good. cbn [with_rest opened eofb failb IStream.rest negb andb].
  destruct rest as [|c t]; [congruence|]. reflexivity.
Qed.

(** A newline left by a text reader, eaten before raw data. *)
Lemma RTe_eat1_RB : forall A B (m : M A) (f : A -> M B) t1 t2 a b,
  RTe m t1 a -> EX (f a) (endl ++ t2) b [] -> forall u, ws u -> EX (bind m f) (u ++ t1 ++ t2) b [].
Proof.
  intros A B m f t1 t2 a b H1 H2 u Hu. rewrite app_assoc. eapply EX_bind; eauto.
Qed.

Lemma eat1_then : forall B (f : unit -> M B) t b,
  RB (f tt) t b -> EX (bind (op eat1) f) (endl ++ t) b [].
Proof.
  intros B f t b H. eapply EX_bind; [apply eat1_EX'|]. exact H.
Qed.

(** ** resize *)

Lemma resize_ok : forall A c sz (d : A) n old,
  0 < sz -> 0 <= n -> n <= PTRDIFF_MAX / sz -> n * sz <= mem c ->
  exists v, resize c sz d n old = Ok v /\ zlen v = n.
Proof.
  intros A c sz d n old Hs Hn H1 H2. unfold resize, can_hold.
  replace (PTRDIFF_MAX / sz <? n) with false by (symmetry; apply Z.ltb_ge; lia).
  assert (E : (if n <=? zlen old then Ok tt else if mem c <? n * sz then Throw BadAlloc else Ok tt) = Ok tt).
  { destruct (n <=? zlen old); [reflexivity|].
    replace (mem c <? n * sz) with false by (symmetry; apply Z.ltb_ge; lia). reflexivity. }
  rewrite E. cbn [obind]. eexists. split; [reflexivity|].
  unfold zlen. rewrite app_length, firstn_length, repeat_length. lia.
Qed.

Lemma resize_fresh : forall A c sz (d : A) n,
  0 < sz -> 0 <= n -> n <= PTRDIFF_MAX / sz -> n * sz <= mem c ->
  resize c sz d n [] = Ok (repeat d (Z.to_nat n)).
Proof.
  intros A c sz d n Hs Hn H1 H2. unfold resize, can_hold.
  replace (PTRDIFF_MAX / sz <? n) with false by (symmetry; apply Z.ltb_ge; lia).
  replace (mem c <? n * sz) with false by (symmetry; apply Z.ltb_ge; lia).
  cbn [List.length]. rewrite firstn_nil. rewrite Nat.sub_0_r.
  destruct (n <=? zlen []); reflexivity.
Qed.
