(** Reading 4.1 text in any layout. *)

From Verif Require Import Spec.Prefix Model.Save Spec.Text41 Spec.Steps Spec.Words Spec.Warnings Proofs.BytesP Proofs.RtBase Proofs.ShowP Proofs.WriteP
  Proofs.RtStep Proofs.Rt41A Proofs.Rt41B Proofs.Rt41 Proofs.Compose Proofs.FormatP Proofs.NumeralsP Proofs.Text22P Proofs.Fuel Proofs.Reach.

Ltac Zify.zify_post_hook ::= idtac.

(** [r] reads words of the given kinds as [v]. *)
Definition RTw {A} (r : M A) (ks : list (bytes -> Prop)) (v : A) : Prop := forall t, text_like ks t -> RT r t v.

(** The same, leaving exactly the character after the last word. *)
Definition RTl {A} (r : M A) (ks : list (bytes -> Prop)) (v : A) : Prop :=
  forall ws' g t, gap g -> Forall2 (fun (k : bytes -> Prop) w => k w) ks ws' -> laid_line g ws' t ->
  forall u, ws u -> EX r (u ++ t) v [g].

Lemma gap_ws : forall g, gap g -> is_ws g = true.
Proof. intros g [<-|[<-|[<-|[<-|[]]]]]; reflexivity. Qed.

Lemma text_app_inv : forall ks ls t, text_like (ks ++ ls) t ->
  exists a b, t = a ++ b /\ text_like ks a /\ text_like ls b.
Proof.
  intros ks ls t (w & F & L). apply Forall2_app_inv_l in F. destruct F as (w1 & w2 & F1 & F2 & ->).
  apply laid_app_inv in L. destruct L as (a & b & -> & L1 & L2). exists a, b.
  split; [reflexivity|]. split; [exists w1|exists w2]; auto.
Qed.

Lemma text_nil_inv : forall t, text_like [] t -> t = [].
Proof. intros t (w & F & L). inversion F; subst. inversion L. reflexivity. Qed.

Lemma line_app_inv : forall g w1 w2 t, w2 <> [] -> laid_line g (w1 ++ w2) t ->
  exists a b, t = a ++ b /\ laid_out w1 a /\ laid_line g w2 b.
Proof.
  intros g w1 w2. induction w1 as [|w l IH]; intros t N H.
  - exists [], t. repeat split; [constructor|exact H].
  - cbn [app] in H. inversion H as [w' E1 E2|w' sep l' t' S1 S2 L E1 E2]; subst.
    + exfalso. destruct l; [|discriminate]. destruct w2; [congruence|discriminate].
    + destruct (IH t' N L) as (a & b & -> & A & B). exists (w ++ sep ++ a), b.
      rewrite <- !app_assoc. repeat split; [constructor; assumption|exact B].
Qed.

Lemma line_laid : forall g l t, gap g -> laid_line g l t -> laid_out l t.
Proof.
  intros g l t G H. induction H as [w|w sep l t S1 S2 L IH].
  - rewrite <- (app_nil_r [g]). constructor; [|discriminate|constructor].
    constructor; [apply gap_ws; exact G|constructor].
  - constructor; assumption.
Qed.

(** ** Sequencing *)

Section Seq.
Context {A B : Type}.
Implicit Types (m : M A) (f : A -> M B).

Lemma RTw_ret : forall v : A, RTw (ret v) [] v.
Proof. intros v t H. apply text_nil_inv in H. subst. apply RT_ret. Qed.

Lemma RTw_bind : forall m f ks ls a b, RTw m ks a -> RTw (f a) ls b -> RTw (bind m f) (ks ++ ls) b.
Proof.
  intros m f ks ls a b H1 H2 t H. apply text_app_inv in H. destruct H as (t1 & t2 & -> & T1 & T2).
  eapply RT_bind; [apply H1|apply H2]; assumption.
Qed.

Lemma RTw_cons : forall m f k ls a b, RTw m [k] a -> RTw (f a) ls b -> RTw (bind m f) (k :: ls) b.
Proof. intros m f k ls a b. apply (RTw_bind m f [k] ls). Qed.

Lemma RTw_bind0 : forall m f ks a b, (forall s, eofb s = false -> failb s = false -> m s = Ok (a, s)) ->
  RTw (f a) ks b -> RTw (bind m f) ks b.
Proof. intros m f ks a b H1 H2 t H. eapply RT_bind0; [exact H1|apply H2, H]. Qed.

Lemma RTw_last : forall m f ks a b, RTw m ks a -> RTw (f a) [] b -> RTw (bind m f) ks b.
Proof. intros m f ks a b H1 H2. rewrite <- (app_nil_r ks). eapply RTw_bind; eassumption. Qed.

Lemma RTl_bind : forall m f ks ls a b, ls <> [] -> RTw m ks a -> RTl (f a) ls b -> RTl (bind m f) (ks ++ ls) b.
Proof.
  intros m f ks ls a b N H1 H2 w g t G F L u Hu.
  apply Forall2_app_inv_l in F. destruct F as (w1 & w2 & F1 & F2 & ->).
  assert (N2 : w2 <> []) by (intros ->; inversion F2; congruence).
  destruct (line_app_inv g w1 w2 t N2 L) as (x & y & -> & L1 & L2).
  destruct (H1 x (ex_intro _ w1 (conj F1 L1)) u Hu) as (u1 & W1 & E1).
  rewrite app_assoc. eapply EX_bind; [exact E1|]. apply (H2 w2 g y G F2 L2 u1 W1).
Qed.

Lemma RTl_cons : forall m f k ls a b, ls <> [] -> RTw m [k] a -> RTl (f a) ls b -> RTl (bind m f) (k :: ls) b.
Proof. intros m f k ls a b. apply (RTl_bind m f [k] ls). Qed.

Lemma RTl_bind0 : forall m f ks a b, (forall s, eofb s = false -> failb s = false -> m s = Ok (a, s)) ->
  RTl (f a) ks b -> RTl (bind m f) ks b.
Proof. intros m f ks a b H1 H2 w g t G F L u Hu. eapply EX_bind0; [exact H1|]. eapply H2; eassumption. Qed.

Lemma RTl_map : forall m f ks a b, RTl m ks a ->
  (forall s, eofb s = false -> failb s = false -> f a s = Ok (b, s)) -> RTl (bind m f) ks b.
Proof.
  intros m f ks a b H1 H2 w g t G F L u Hu rest Hr. unfold bind. rewrite (H1 w g t G F L u Hu rest Hr).
  apply H2; reflexivity.
Qed.
End Seq.

Lemma RTw_mapM : forall A B C (f : A -> M B) (g : C -> list (bytes -> Prop)) (h : C -> B) (vs : list C) (xs : list A),
  List.length xs = List.length vs ->
  (forall x v, In x xs -> In v vs -> RTw (f x) (g v) (h v)) ->
  RTw (mapM f xs) (flat_map g vs) (map h vs).
Proof.
  intros A B C f g h. induction vs as [|v vs IH]; intros [|x xs] HL H; try discriminate HL.
  - apply RTw_ret.
  - cbn [mapM flat_map map]. eapply RTw_bind; [apply H; left; reflexivity|].
    eapply RTw_last; [|apply RTw_ret]. apply IH; [injection HL; auto|]. intros; apply H; right; assumption.
Qed.

Lemma flat_single : forall A B (f : A -> B) l, flat_map (fun x => [f x]) l = map f l.
Proof. intros A B f l. induction l as [|x l IH]; [reflexivity|]. cbn [flat_map map app]. rewrite IH. reflexivity. Qed.

Lemma RTw_mapM1 : forall A B (f : A -> M B) (k : B -> bytes -> Prop) (vs : list B) (xs : list A),
  List.length xs = List.length vs ->
  (forall x v, In x xs -> In v vs -> RTw (f x) [k v] v) -> RTw (mapM f xs) (map k vs) vs.
Proof.
  intros A B f k vs xs HL H. rewrite <- flat_single. rewrite <- (map_id vs) at 2.
  apply (RTw_mapM A B B f (fun v => [k v]) (fun v => v)); assumption.
Qed.

(** The last word of a line of words. *)
Lemma RTl_mapM1 : forall A B (f : A -> M B) (k : B -> bytes -> Prop) (vs : list B) (xs : list A),
  vs <> [] -> List.length xs = List.length vs ->
  (forall x v, In x xs -> In v vs -> RTw (f x) [k v] v) ->
  (forall x v, In x xs -> In v vs -> RTl (f x) [k v] v) -> RTl (mapM f xs) (map k vs) vs.
Proof.
  intros A B f k. induction vs as [|v vs IH]; intros [|x xs] N HL H1 H2; try discriminate HL; [congruence|].
  cbn [mapM map]. destruct vs as [|v' vs].
  - destruct xs; [|discriminate HL]. eapply RTl_map; [apply H2; left; reflexivity|]. intros; reflexivity.
  - eapply RTl_cons; [discriminate|apply H1; left; reflexivity|]. eapply RTl_map.
    + apply IH; [discriminate|injection HL; auto| |]; intros; [apply H1|apply H2]; right; assumption.
    + intros; reflexivity.
Qed.

(** ** Single words *)

Lemma one_word_inv : forall k t, text_like [k] t -> exists w sep, k w /\ ws sep /\ sep <> [] /\ t = w ++ sep.
Proof.
  intros k t (w & F & L). inversion F as [|? x ? ? K F']; subst. inversion F'; subst.
  apply laid_cons_inv in L. destruct L as (sep & t' & W & N & -> & L). inversion L; subst.
  exists x, sep. rewrite app_nil_r. auto.
Qed.

Lemma one_line_inv : forall (k : bytes -> Prop) ws' g t, Forall2 (fun (k : bytes -> Prop) w => k w) [k] ws' ->
  laid_line g ws' t -> exists w, k w /\ t = w ++ [g].
Proof.
  intros k ws' g t F L. inversion F as [|? x ? ? K F']; subst. inversion F'; subst.
  inversion L as [|w sep l t' S1 S2 L']; subst; [|inversion L']. exists x. auto.
Qed.

Section Num.
Variables (ext : bytes -> Z * bool * bytes) (k : bytes -> Prop) (z : Z).
Hypothesis R : forall w, k w -> reads ext w z.

Lemma RTw_num : forall old, RTw (op (rd_num ext old)) [k] z.
Proof.
  intros old t H. apply one_word_inv in H. destruct H as (w & sep & K & W & N & ->).
  apply rd_num_RT; auto.
Qed.

Lemma RTw_num_opt : forall old, RTw (op (rd_num_opt ext old)) [k] (Some z).
Proof.
  intros old t H. apply one_word_inv in H. destruct H as (w & sep & K & W & N & ->).
  apply rd_num_opt_RT; auto.
Qed.

Lemma RTl_num : forall old, RTl (op (rd_num ext old)) [k] z.
Proof.
  intros old w g t G F L u Hu. destruct (one_line_inv k w g t F L) as (x & K & ->).
  apply rd_num_EX; auto; [|discriminate]. constructor; [apply gap_ws; exact G|constructor].
Qed.
End Num.

Lemma RTw_int : forall z old, RTw (op (rd_int old)) [int_word z] z.
Proof. intros. apply RTw_num. intros; apply int_word_reads; assumption. Qed.
Lemma RTw_int_opt : forall z old, RTw (op (rd_int_opt old)) [int_word z] (Some z).
Proof. intros. apply RTw_num_opt. intros; apply int_word_reads; assumption. Qed.
Lemma RTl_int : forall z old, RTl (op (rd_int old)) [int_word z] z.
Proof. intros. apply RTl_num. intros; apply int_word_reads; assumption. Qed.
Lemma RTw_size : forall z old, RTw (op (rd_size old)) [size_word z] z.
Proof. intros. apply RTw_num. intros; apply size_word_reads; assumption. Qed.
Lemma RTw_size_opt : forall z old, RTw (op (rd_size_opt old)) [size_word z] (Some z).
Proof. intros. apply RTw_num_opt. intros; apply size_word_reads; assumption. Qed.
Lemma RTl_size : forall z old, RTl (op (rd_size old)) [size_word z] z.
Proof. intros. apply RTl_num. intros; apply size_word_reads; assumption. Qed.
Lemma RTw_double : forall x old, RTw (op (rd_double old)) [real_word x] x.
Proof. intros. apply RTw_num. intros; apply real_reads; assumption. Qed.

Lemma RTw_name : forall n old, RTw (op (rd_quoted old)) [name_word n] n.
Proof.
  intros n old t H. apply one_word_inv in H. destruct H as (w & sep & -> & W & _ & ->).
  rewrite <- quoted_in. apply rd_quoted_RT. exact W.
Qed.

Lemma RTw_token : forall v old, word v -> RTw (op (rd_token old)) [eq v] v.
Proof.
  intros v old Hv t H. apply one_word_inv in H. destruct H as (w & sep & <- & W & N & ->).
  apply rd_token_RT; auto.
Qed.

Ltac rw1 :=
  first
  [ eapply RTw_cons; [first [apply RTw_int|apply RTw_size|apply RTw_double|apply RTw_int_opt|apply RTw_size_opt|apply RTw_name]|]
  | eapply RTw_bind0; [intros; first [apply assert_good_ok; assumption|reflexivity]|] ].

Lemma mapM_sizes_w : forall vs xs, List.length xs = List.length vs ->
  RTw (mapM (fun o => op (rd_size o)) xs) (map size_word vs) vs.
Proof. intros vs xs HL. apply RTw_mapM1; [exact HL|]. intros; apply RTw_size. Qed.
Lemma mapM_ints_w : forall vs xs, List.length xs = List.length vs ->
  RTw (mapM (fun o => op (rd_int o)) xs) (map int_word vs) vs.
Proof. intros vs xs HL. apply RTw_mapM1; [exact HL|]. intros; apply RTw_int. Qed.
Lemma mapM_doubles_w : forall vs xs, List.length xs = List.length vs ->
  RTw (mapM (fun o => op (rd_double o)) xs) (map real_word vs) vs.
Proof. intros vs xs HL. apply RTw_mapM1; [exact HL|]. intros; apply RTw_double. Qed.

Lemma fields_app : forall a b, fields (a ++ b) = fields a ++ fields b.
Proof. intros. apply map_app. Qed.
Lemma fields_Size : forall l, fields (map Size l) = map size_word l.
Proof. intro l. unfold fields. rewrite map_map. reflexivity. Qed.
Lemma fields_Int : forall l, fields (map Int l) = map int_word l.
Proof. intro l. unfold fields. rewrite map_map. reflexivity. Qed.
Lemma fields_Real : forall l, fields (map Real l) = map real_word l.
Proof. intro l. unfold fields. rewrite map_map. reflexivity. Qed.

Lemma concat_single : forall A B (f : A -> B) l, List.concat (map (fun x => [f x]) l) = map f l.
Proof. intros A B f l. rewrite <- flat_map_concat_map. apply flat_single. Qed.

Lemma concat_flat : forall A B (f : A -> list (list B)) l,
  List.concat (flat_map f l) = flat_map (fun x => List.concat (f x)) l.
Proof. intros A B f l. induction l as [|x l IH]; [reflexivity|]. cbn [flat_map]. rewrite concat_app, IH. reflexivity. Qed.

Lemma fields_flat : forall A (f : A -> list field) l, fields (flat_map f l) = flat_map (fun x => fields (f x)) l.
Proof. intros A f l. induction l as [|x l IH]; [reflexivity|]. cbn [flat_map]. rewrite fields_app, IH. reflexivity. Qed.

(** ** Nodes *)

Lemma node_block_w : forall c b b0, node_block_ok c true b ->
  RTw (v41_node_block_ascii c b0) (fields (List.concat (node_block_records b))) b.
Proof.
  intros c b b0 H. destruct H as [Hd Ht Hp Hp3 Hn Hts Hw Hdat Hv Hm1 Hm2].
  pose proof (fits_size_ok' _ _ _ _ Hm1 eq_refl) as Hs1.
  pose proof (fits_size_ok' _ _ _ _ Hm2 eq_refl) as Hs2.
  unfold node_block_records. cbn [List.concat]. rewrite concat_app, concat_single, <- concat_map.
  rewrite (cut_data (nb_data b)) by (try exact Hdat; first [rewrite Hn; apply zlen_nonneg|lia]).
  rewrite !fields_app, fields_Size, fields_Real. cbn [fields map app field_word].
  unfold v41_node_block_ascii. do 5 rw1.
  destruct (fits_resize Z c sz_size 0 (nb_num b) (nb_tags b0)) as (v1 & E1 & L1);
    [reflexivity|rewrite Hn; apply zlen_nonneg|rewrite Hn; exact Hm1|].
  eapply RTw_bind0; [intros; apply lift_ok; exact E1|].
  eapply RTw_bind; [apply mapM_sizes_w; apply zlen_length; congruence|].
  rw1. eapply RTw_bind0.
  { intros. apply massert_ok. destruct (ndebug c) eqn:N; [right; reflexivity|left].
    specialize (Hp3 eq_refl eq_refl). apply andb_true_iff. split; apply Z.leb_le; lia. }
  eapply RTw_bind0; [intros; apply lift_ok; apply epn_ok; exact Hw|].
  destruct (fits_resize Z c sz_double 0 (zlen (nb_data b)) (nb_data b0)) as (v2 & E2 & L2);
    [reflexivity|apply zlen_nonneg|exact Hm2|].
  eapply RTw_bind0.
  { intros. apply lift_ok. rewrite <- Hdat. rewrite to_size_id by exact Hs2. exact E2. }
  rewrite fill_ok by (rewrite <- Hdat; symmetry; assumption).
  eapply RTw_last; [apply mapM_doubles_w; apply zlen_length; exact L2|].
  rw1. destruct b. apply RTw_ret.
Qed.

Lemma nodes_w : forall c n n0, nodes_ok c true n ->
  RTw (v41_load_nodes_ascii c n0) (fields (List.concat (nodes_records n))) n.
Proof.
  intros c n n0 H. destruct H as [Hn Hmin Hmax Hm Hb].
  unfold nodes_records. cbn [List.concat]. rewrite concat_flat, fields_app, fields_flat.
  cbn [sizes map fields app field_word]. unfold v41_load_nodes_ascii. do 5 rw1.
  destruct (fits_resize NodeBlock c sz_NodeBlock nb_default (n_num_blocks n) (n_blocks n0)) as (v1 & E1 & L1);
    [reflexivity|rewrite Hn; apply zlen_nonneg|rewrite Hn; exact Hm|].
  eapply RTw_bind0; [intros; apply lift_ok; exact E1|].
  eapply RTw_last.
  - apply (RTw_mapM _ _ _ _ _ (fun b => b)); [apply zlen_length; congruence|].
    intros x b _ Hin. apply node_block_w. rewrite Forall_forall in Hb. auto.
  - rewrite map_id. destruct n. apply RTw_ret.
Qed.

(** ** Elements *)

Lemma element_block_w : forall c b b0, element_block_ok c b ->
  RTw (v41_element_block_ascii c b0) (fields (List.concat (element_block_records b))) b.
Proof.
  intros c b b0 H. destruct H as [Hd Ht Hn Hdat Hv Hm]. destruct Hdat as (n & Hg & Hl).
  pose proof Hg as G. apply gmsh_nodes_spec in G. destruct G as (G & Hn1 & Hty).
  pose proof (fits_size_ok' _ _ _ _ Hm eq_refl) as Hs.
  unfold element_block_records. cbn [List.concat].
  assert (EB : List.concat (map (fun e => map Size (element_words e)) (block_elements b)) = map Size (eb_data b)).
  { rewrite <- (map_map element_words (map Size)).
    rewrite (block_elements_words b n Hg ltac:(lia) ltac:(destruct Hn; assumption) Hl).
    rewrite <- concat_map. f_equal. apply concat_rows; [destruct Hn; assumption|lia|exact Hl]. }
  rewrite EB, fields_app, fields_Size. cbn [fields map app field_word].
  unfold v41_element_block_ascii. do 4 rw1.
  eapply RTw_bind0; [intros; apply lift_ok; exact G|].
  destruct (fits_resize Z c sz_size 0 (zlen (eb_data b)) (eb_data b0)) as (v1 & E1 & L1);
    [reflexivity|apply zlen_nonneg|exact Hm|].
  eapply RTw_bind0.
  { intros. apply lift_ok. rewrite <- Hl. rewrite to_size_id by exact Hs. exact E1. }
  rewrite fill_ok by (rewrite <- Hl; symmetry; assumption).
  eapply RTw_last; [apply mapM_sizes_w; apply zlen_length; exact L1|].
  rw1. destruct b. apply RTw_ret.
Qed.

Lemma elements_w : forall c e e0, elements_ok c e ->
  RTw (v41_load_elements_ascii c e0) (fields (List.concat (elements_records e))) e.
Proof.
  intros c n n0 H. destruct H as [Hn Hmin Hmax Hm Hb].
  unfold elements_records. cbn [List.concat]. rewrite concat_flat, fields_app, fields_flat.
  cbn [sizes map fields app field_word]. unfold v41_load_elements_ascii. do 5 rw1.
  destruct (fits_resize ElementBlock c sz_ElementBlock eb_default (e_num_blocks n) (e_blocks n0)) as (v1 & E1 & L1);
    [reflexivity|rewrite Hn; apply zlen_nonneg|rewrite Hn; exact Hm|].
  eapply RTw_bind0; [intros; apply lift_ok; exact E1|].
  eapply RTw_last.
  - apply (RTw_mapM _ _ _ _ _ (fun b => b)); [apply zlen_length; congruence|].
    intros x b _ Hin. apply element_block_w. rewrite Forall_forall in Hb. auto.
  - rewrite map_id. destruct n. apply RTw_ret.
Qed.

(** ** Entities *)

Lemma ints_w : forall c old l, ints_ok c l -> RTw (ints_ascii c old) (size_word (zlen l) :: map int_word l) l.
Proof.
  intros c old l [Hi Hm]. unfold ints_ascii. rw1. rw1.
  destruct (fits_resize Z c sz_int 0 (zlen l) old) as (v1 & E1 & L1);
    [reflexivity|apply zlen_nonneg|exact Hm|].
  eapply RTw_bind0; [intros; apply lift_ok; exact E1|].
  apply mapM_ints_w. apply zlen_length. exact L1.
Qed.

Lemma fields_counted : forall l, fields (Format.counted l) = size_word (zlen l) :: map int_word l.
Proof. intro l. unfold Format.counted. cbn [fields map field_word]. f_equal. apply fields_Int. Qed.

Lemma point_w : forall c p p0, point_ok c true p -> RTw (point_ascii c p0) (fields (point_record p)) p.
Proof.
  intros c p p0 H. destruct H as [Ht _ Hp]. unfold point_record. rewrite fields_app, fields_counted.
  cbn [fields map app field_word]. unfold point_ascii. do 4 rw1.
  eapply RTw_last; [apply ints_w; exact Hp|]. destruct p. apply RTw_ret.
Qed.

Lemma entity_w : forall c e e0, entity_ok c true e -> RTw (entity_ascii c e0) (fields (entity_record e)) e.
Proof.
  intros c e e0 H. destruct H as [Ht _ _ Hp Hb]. unfold entity_record. rewrite !fields_app, !fields_counted.
  cbn [fields map app field_word]. unfold entity_ascii. do 7 rw1.
  eapply (RTw_bind _ _ (_ :: _)); [apply ints_w; exact Hp|].
  eapply RTw_last; [apply ints_w; exact Hb|]. destruct e. apply RTw_ret.
Qed.

Lemma fields_concat_map : forall A (f : A -> list field) l,
  fields (List.concat (map f l)) = flat_map (fun x => fields (f x)) l.
Proof. intros A f l. rewrite <- flat_map_concat_map. apply fields_flat. Qed.

Lemma entities_w : forall c en en0, entities_ok c true en ->
  RTw (v41_load_entities_ascii c en0) (fields (List.concat (entities_records en))) en.
Proof.
  intros c en en0 H. pose proof (resize_entities_ok c true en en0 H) as (en1 & ER & L1 & L2 & L3 & L4).
  destruct H as [[F1 H1] [F2 H2] [F3 H3] [F4 H4]]. rewrite Forall_forall in F1, F2, F3, F4.
  unfold entities_records. cbn [List.concat]. rewrite !map_app, !concat_app, !fields_app, !fields_concat_map.
  cbn [sizes map fields app field_word]. unfold v41_load_entities_ascii. do 5 rw1.
  eapply RTw_bind0; [intros; apply ER|].
  eapply RTw_bind; [apply (RTw_mapM _ _ _ _ _ (fun p => p)); [exact L1|intros; apply point_w; auto]|].
  eapply RTw_bind; [apply (RTw_mapM _ _ _ _ _ (fun p => p)); [exact L2|intros; apply entity_w; auto]|].
  eapply RTw_bind; [apply (RTw_mapM _ _ _ _ _ (fun p => p)); [exact L3|intros; apply entity_w; auto]|].
  eapply RTw_last; [apply (RTw_mapM _ _ _ _ _ (fun p => p)); [exact L4|intros; apply entity_w; auto]|].
  rw1. rewrite !map_id. destruct en. apply RTw_ret.
Qed.

(** ** Groups *)

Lemma group_w : forall g0 g, RTw (load_group g0) (group_kinds g) g.
Proof.
  intros g0 g. unfold load_group, group_kinds. do 3 rw1. destruct g. apply RTw_ret.
Qed.

Lemma groups_w : forall c spec gs, groups_ok c gs ->
  RTw (load_physical_groups c spec) (int_word (zlen gs) :: flat_map group_kinds gs) (set_physical_groups gs spec).
Proof.
  intros c spec gs [Ha Hn Hm]. unfold load_physical_groups.
  pose proof (zlen_nonneg _ gs). rw1. rw1.
  destruct (fits_resize PhysicalGroup c sz_PhysicalGroup pg_default (zlen gs) (physical_groups spec)) as (v1 & E1 & L1);
    [reflexivity|lia|exact Hm|].
  eapply RTw_bind0.
  { intros. apply lift_ok. rewrite to_size_id by (unfold INT_MAX, two64 in *; lia). exact E1. }
  eapply RTw_last.
  - apply (RTw_mapM _ _ _ _ _ (fun g => g)); [apply zlen_length; exact L1|]. intros; apply group_w.
  - rw1. rewrite map_id. apply RTw_ret.
Qed.

(** ** Data *)

Definition header_sizes (c : cfg) (h : DataHeader) : Prop :=
  fits c sz_string (zlen (string_tags h)) /\ fits c sz_double (zlen (real_tags h)) /\
  ints_ok c (int_tags h) /\ int_tags h <> [].

Ltac header_start c h Hs Hr Hi :=
  destruct (fits_resize bytes c sz_string [] (zlen (string_tags h)) []) as (v1 & E1 & L1);
    [reflexivity|apply zlen_nonneg|exact Hs|];
  destruct (fits_resize Z c sz_double 0 (zlen (real_tags h)) []) as (v2 & E2 & L2);
    [reflexivity|apply zlen_nonneg|exact Hr|];
  destruct (fits_resize Z c sz_int 0 (zlen (int_tags h)) []) as (v3 & E3 & L3);
    [reflexivity|apply zlen_nonneg|exact Hi|].

Lemma header_w : forall c h, header_sizes c h -> RTw (load_data_header c) (tags_kinds h) h.
Proof.
  intros c h (Hs & Hr & [_ Hi] & _). unfold load_data_header, tags_kinds. header_start c h Hs Hr Hi.
  rw1. rw1. eapply RTw_bind0; [intros; apply lift_ok; exact E1|].
  eapply RTw_bind; [apply (RTw_mapM1 _ _ _ name_word); [apply zlen_length; exact L1|intros; apply RTw_name]|].
  rw1. rw1. eapply RTw_bind0; [intros; apply lift_ok; exact E2|].
  eapply RTw_bind; [apply mapM_doubles_w; apply zlen_length; exact L2|].
  rw1. rw1. eapply RTw_bind0; [intros; apply lift_ok; exact E3|].
  eapply RTw_last; [apply mapM_ints_w; apply zlen_length; exact L3|].
  rw1. destruct h. apply RTw_ret.
Qed.

Lemma header_l : forall c h, header_sizes c h -> RTl (load_data_header c) (tags_kinds h) h.
Proof.
  intros c h (Hs & Hr & [_ Hi] & Hne). unfold load_data_header, tags_kinds. header_start c h Hs Hr Hi.
  eapply RTl_cons; [destruct (map name_word (string_tags h)); discriminate|apply RTw_size_opt|].
  eapply RTl_bind0; [intros; reflexivity|].
  eapply RTl_bind0; [intros; apply lift_ok; exact E1|].
  eapply RTl_bind; [discriminate|apply (RTw_mapM1 _ _ _ name_word); [apply zlen_length; exact L1|intros; apply RTw_name]|].
  eapply RTl_cons; [destruct (map real_word (real_tags h)); discriminate|apply RTw_size_opt|].
  eapply RTl_bind0; [intros; reflexivity|].
  eapply RTl_bind0; [intros; apply lift_ok; exact E2|].
  eapply RTl_bind; [discriminate|apply mapM_doubles_w; apply zlen_length; exact L2|].
  eapply RTl_cons; [destruct (int_tags h); [congruence|discriminate]|apply RTw_size_opt|].
  eapply RTl_bind0; [intros; reflexivity|].
  eapply RTl_bind0; [intros; apply lift_ok; exact E3|].
  eapply RTl_map.
  - apply RTl_mapM1; [exact Hne|apply zlen_length; exact L3|intros; apply RTw_int|intros; apply RTl_int].
  - intros s Q1 Q2. unfold bind. rewrite assert_good_ok by assumption. destruct h. reflexivity.
Qed.

Lemma entry_w : forall c pn k e, int_ok k -> entry_ok c true pn k e ->
  RTw (entry_ascii c (to_size k) pn de_default) (entry_kinds pn e) e.
Proof.
  intros c pn k e Hk [Ht Hn Hl Hv Hm]. unfold entry_ascii, entry_kinds.
  rw1. pose proof (fits_size_ok' _ _ _ _ Hm eq_refl) as Hs.
  destruct (fits_resize Z c sz_double 0 (zlen (de_data e)) (de_data de_default)) as (v1 & E1 & L1);
    [reflexivity|apply zlen_nonneg|exact Hm|].
  destruct pn; cbn [app].
  - rw1.
    pose proof (fields_ok c k (de_npe e) (de_data e) Hk Hn Hl Hm) as F. rewrite F.
    eapply RTw_bind0; [intros; apply lift_ok; rewrite to_size_id by exact Hs; exact E1|].
    rewrite fill_ok by (symmetry; assumption).
    eapply RTw_last; [apply mapM_doubles_w; apply zlen_length; exact L1|]. destruct e. apply RTw_ret.
  - assert (F : to_size k = zlen (de_data e)).
    { rewrite Hl. pose proof (zlen_nonneg _ (de_data e)). apply to_size_id.
      unfold int_ok, INT_MAX, two64 in *. lia. }
    rewrite F. eapply RTw_bind0; [intros; apply lift_ok; exact E1|].
    eapply RTw_last; [apply mapM_doubles_w; apply zlen_length; exact L1|].
    cbn [de_npe de_default]. rewrite <- Hn. destruct e. apply RTw_ret.
Qed.

Lemma data_sizes : forall c a pn d, data_ok c a pn d -> header_sizes c (d_header d).
Proof.
  intros c a pn d [Hs Hr Hrm Hi (i0 & k & l & Ei & He) Hem].
  refine (conj Hs (conj Hrm (conj Hi _))). rewrite Ei. discriminate.
Qed.

Lemma data_w : forall c v pn d, data_ok c true pn d ->
  RTw (load_data c v false pn) (tags_kinds (d_header d) ++ flat_map (entry_kinds pn) (d_entries d)) d.
Proof.
  intros c v pn d H. pose proof (data_sizes _ _ _ _ H) as HS.
  destruct H as [Hs Hr Hrm Hi (i0 & k & l & Ei & He) Hem]. unfold load_data.
  eapply RTw_bind; [apply header_w; exact HS|]. rewrite Ei.
  pose proof (fits_size_ok' _ _ _ _ Hem eq_refl) as Hsz.
  assert (Hk : int_ok k).
  { destruct Hi as [Hi _]. rewrite Ei in Hi. inversion Hi as [|? ? _ Hi']; subst. inversion Hi'; assumption. }
  destruct (fits_resize DataEntry c sz_DataEntry de_default (zlen (d_entries d)) []) as (v1 & E1 & L1);
    [reflexivity|apply zlen_nonneg|exact Hem|].
  eapply RTw_bind0; [intros; apply lift_ok; rewrite to_size_id by exact Hsz; exact E1|].
  eapply RTw_last.
  - apply (RTw_mapM _ _ _ _ _ (fun e => e)); [apply zlen_length; exact L1|].
    intros x e Hx Hin.
    assert (x = de_default) as ->.
    { unfold resize in E1. destruct (can_hold c sz_DataEntry (zlen (d_entries d)) []); try discriminate.
      injection E1 as <-. rewrite firstn_nil in Hx. apply repeat_spec in Hx. exact Hx. }
    rewrite Forall_forall in He. apply entry_w; auto.
  - rw1. rewrite map_id. destruct d. apply RTw_ret.
Qed.

(** ** Raw numbers after one character *)

Lemma eat1_gap : forall g, gap g -> EX (op eat1) [g] tt [].
Proof.
  intros g Hg rest Hr. destruct rest as [|x r]; [congruence|].
  destruct Hg as [<-|[<-|[<-|[<-|[]]]]]; reflexivity.
Qed.

Lemma eat1_swap : forall B (f : unit -> M B) g t v p, gap g -> EX (bind (op eat1) f) (endl ++ t) v p ->
  EX (bind (op eat1) f) ([g] ++ t) v p.
Proof.
  intros B f g t v p Hg H rest Hr. specialize (H rest Hr).
  assert (N : t ++ rest <> []) by (apply app_nonnil_r; exact Hr).
  rewrite <- app_assoc in H |- *. unfold bind in *. pose proof (eat1_EX' _ N) as E1.
  rewrite E1 in H. rewrite (eat1_gap g Hg _ N). exact H.
Qed.

Lemma eat1_gap_then : forall B (f : unit -> M B) g t b, gap g -> RB (f tt) t b -> EX (bind (op eat1) f) ([g] ++ t) b [].
Proof. intros B f g t b Hg H. eapply EX_bind; [apply eat1_gap; exact Hg|exact H]. Qed.

Lemma via_raw_id : forall r x, via false r x = x.
Proof. reflexivity. Qed.

Lemma map_same : forall A (f : A -> A) l, (forall x, In x l -> f x = x) -> map f l = l.
Proof. intros A f l H. rewrite <- (map_id l) at 2. apply map_ext_in. exact H. Qed.

Lemma node_block_raw : forall r b, node_block_via false r b = b.
Proof. intros r b. unfold node_block_via. rewrite map_via_raw. destruct b. reflexivity. Qed.

Lemma entities_raw : forall r e, entities_via false r e = e.
Proof.
  intros r e. unfold entities_via.
  rewrite (map_same _ (point_via false r)) by (intros []; reflexivity).
  rewrite !(map_same _ (entity_via false r)) by (intros []; reflexivity). destruct e. reflexivity.
Qed.

Lemma fst_eq : forall (a b : bytes) (x y : outcome unit), (a, x) = (b, y) -> a = b.
Proof. intros. congruence. Qed.

Lemma nodes_raw : forall c n n0 g, gap g -> nodes_ok c false n -> size_ok (n_num_nodes n) ->
  EX (v41_load_nodes_binary c n0) ([g] ++ encode false (nodes_records n)) n [].
Proof.
  intros c n n0 g Hg H Hn. pose proof (Rt41B.load_nodes_b c r6 n n0 H Hn) as L.
  rewrite (map_same _ (node_block_via false r6)) in L by (intros; apply node_block_raw).
  assert (E : nodes_bytes n = encode false (nodes_records n)).
  { eapply fst_eq. rewrite <- (nodes41_msh c false n H) by discriminate. symmetry. apply (save_nodes_b c n H). }
  rewrite <- E. unfold v41_load_nodes_binary in *. apply eat1_swap; [exact Hg|]. destruct n. exact L.
Qed.

Lemma elements_raw : forall c e e0 g, gap g -> elements_ok c e -> size_ok (e_num_elements e) ->
  EX (v41_load_elements_binary c e0) ([g] ++ encode false (elements_records e)) e [].
Proof.
  intros c e e0 g Hg H Hn. pose proof (Rt41B.load_elements_b c e e0 H Hn) as L.
  assert (E : elements_bytes e = encode false (elements_records e)).
  { eapply fst_eq. rewrite <- (elements41_msh c false e H). symmetry. apply (save_elements_b c e H). }
  rewrite <- E. unfold v41_load_elements_binary in *. apply eat1_swap; [exact Hg|]. exact L.
Qed.

Lemma entities_raw_load : forall c e e0 g, gap g -> entities_ok c false e ->
  EX (v41_load_entities_binary c e0) ([g] ++ encode false (entities_records e)) e [].
Proof.
  intros c e e0 g Hg H. pose proof (Rt41B.load_entities_b c r6 e e0 H) as L. rewrite entities_raw in L.
  assert (E : entities_bytes e = encode false (entities_records e)).
  { eapply fst_eq. rewrite <- (entities_msh false e). symmetry. apply save_entities_b. }
  rewrite <- E. unfold v41_load_entities_binary in *. apply eat1_swap; [exact Hg|]. exact L.
Qed.

Lemma entry_raw_bytes : forall pn e, entry_bytes pn e = flat_map raw_of (entry_record pn e).
Proof.
  intros pn e. unfold entry_bytes, entry_record. cbn [flat_map raw_of]. rewrite flat_map_app, raw_Real.
  destruct pn; cbn [flat_map raw_of]; rewrite ?app_nil_r; reflexivity.
Qed.

Lemma data_raw : forall c v pn d h u, v = v41s \/ v = v22s -> data_ok c false pn d -> small_data_tags d ->
  line_like (tags_kinds (d_header d)) h -> ws u ->
  EX (load_data c v true pn) (u ++ h ++ encode false (map (entry_record pn) (d_entries d))) d [].
Proof.
  intros c v pn d h u V H SM (wds & g & G & F & L) Hu. pose proof (data_sizes _ _ _ _ H) as HS.
  destruct H as [Hs Hr Hrm Hi (i0 & k & l & Ei & He) Hem]. unfold load_data.
  rewrite app_assoc. eapply EX_bind; [apply (header_l c (d_header d) HS wds g h G F L u Hu)|]. rewrite Ei.
  pose proof (fits_size_ok' _ _ _ _ Hem eq_refl) as Hsz.
  assert (Hk : int_ok k).
  { destruct Hi as [Hi _]. rewrite Ei in Hi. inversion Hi as [|? ? _ Hi']; subst. inversion Hi'; assumption. }
  destruct (fits_resize DataEntry c sz_DataEntry de_default (zlen (d_entries d)) []) as (v1 & E1 & L1);
    [reflexivity|apply zlen_nonneg|exact Hem|].
  eapply EX_bind0; [intros; apply lift_ok; rewrite to_size_id by exact Hsz; exact E1|].
  assert (HE : forall is22, RB (mapM (entry_binary c is22 (to_size k) pn) v1)
                 (encode false (map (entry_record pn) (d_entries d))) (d_entries d)).
  { intro is22. rewrite encode_map.
    rewrite (flat_map_eq _ _ (entry_bytes pn)) by (intros; rewrite encode_raw; symmetry; apply entry_raw_bytes).
    rewrite <- concat_flat_map.
    assert (ES : map (entry_via false r6) (d_entries d) = d_entries d).
    { apply map_same. intros e Hin. unfold small_data_tags in SM. rewrite Forall_forall in SM, He.
      destruct (He e Hin) as [[Ht _] _ _ _ _]. unfold entry_via. rewrite map_via_raw.
      specialize (SM e Hin). cbv beta in SM. rewrite tag32_small by lia. destruct e. reflexivity. }
    rewrite <- ES at 2. apply mapM_RB'; [apply zlen_length; exact L1|]. intros x e Hx Hin.
    assert (x = de_default) as ->.
    { unfold resize in E1. destruct (can_hold c sz_DataEntry (zlen (d_entries d)) []); try discriminate.
      injection E1 as <-. rewrite firstn_nil in Hx. apply repeat_spec in Hx. exact Hx. }
    rewrite Forall_forall in He. apply load_entry_b; auto. }
  eapply EX_last.
  - apply eat1_gap_then; [exact G|]. destruct V; subst v; apply HE.
  - eapply RB_bind0; [intros; apply assert_good_ok; assumption|]. destruct d. apply RB_ret.
Qed.

(** ** Curves and patches *)

Lemma curve_w : forall c k k0, curve_ok c true k ->
  RTw (load_curve c true k0)
    (map size_word [cv_tag k; cv_type k; cv_degree k; cv_ncp k; cv_nknots k; cv_weights k] ++ map real_word (cv_data k)) k.
Proof.
  intros c k k0 H. pose proof (curve_entries_ok c k true H) as HE. destruct H as [_ Hl Hv Hm].
  unfold load_curve. cbn [map app]. do 7 rw1.
  destruct (fits_resize Z c sz_double 0 (zlen (cv_data k)) (cv_data k0)) as (v1 & E1 & L1);
    [reflexivity|apply zlen_nonneg|exact Hm|].
  eapply RTw_bind0; [intros; apply lift_ok; rewrite HE; exact E1|].
  eapply RTw_last; [apply mapM_doubles_w; apply zlen_length; exact L1|]. destruct k. apply RTw_ret.
Qed.

Lemma patch_w : forall c k k0, patch_ok c true k ->
  RTw (load_patch c true k0)
    (map size_word [pt_tag k; pt_type k; pt_degu k; pt_degv k; pt_ncp k; pt_nu k; pt_nv k; pt_weights k] ++
     map real_word (pt_data k)) k.
Proof.
  intros c k k0 H. pose proof (patch_entries_ok c k true H) as HE. destruct H as [_ Hl Hv Hm].
  unfold load_patch. cbn [map app]. do 8 rw1.
  destruct (fits_resize Z c sz_double 0 (zlen (pt_data k)) (pt_data k0)) as (v1 & E1 & L1);
    [reflexivity|apply zlen_nonneg|exact Hm|].
  eapply RTw_bind0; [intros; apply lift_ok; rewrite HE; exact E1|].
  eapply RTw_last; [apply mapM_doubles_w; apply zlen_length; exact L1|]. destruct k. apply RTw_ret.
Qed.

(** A head read word by word, its last word followed by one character. *)
Lemma RTl_then : forall A B (m : M A) (f : A -> M B) ks k a b t, RTl m ks a -> line_like ks k ->
  (forall g, gap g -> EX (f a) ([g] ++ t) b []) -> RT (bind m f) (k ++ t) b.
Proof.
  intros A B m f ks k a b t H (wds & g & G & F & L) Hf u Hu. exists []. split; [constructor|].
  rewrite app_assoc. eapply EX_bind; [apply (H wds g k G F L u Hu)|]. apply Hf. exact G.
Qed.

Definition RX {A} (r : M A) (ks : list (bytes -> Prop)) (t : bytes) (v : A) : Prop :=
  forall h, line_like ks h -> forall u, ws u -> EX r (u ++ h ++ t) v [].

Lemma RX_cons : forall A B (m : M A) (f : A -> M B) k ks a b t, ks <> [] -> RTw m [k] a -> RX (f a) ks t b ->
  RX (bind m f) (k :: ks) t b.
Proof.
  intros A B m f k ks a b t N H1 H2 h (wds & g & G & F & L) u Hu.
  change (k :: ks) with ([k] ++ ks) in F.
  apply Forall2_app_inv_l in F. destruct F as (w1 & w2 & F1 & F2 & ->).
  assert (N2 : w2 <> []) by (intros ->; inversion F2; congruence).
  destruct (line_app_inv g w1 w2 h N2 L) as (x & y & -> & L1 & L2).
  destruct (H1 x (ex_intro _ w1 (conj F1 L1)) u Hu) as (u1 & W1 & E1).
  rewrite <- app_assoc, app_assoc. eapply EX_bind; [exact E1|].
  apply H2; [|exact W1]. exists w2, g. auto.
Qed.

Lemma RX_last : forall A B (m : M A) (f : A -> M B) ks a b t, RTl m ks a ->
  (forall g, gap g -> EX (f a) ([g] ++ t) b []) -> RX (bind m f) ks t b.
Proof.
  intros A B m f ks a b t H Hf h (wds & g & G & F & L) u Hu.
  rewrite app_assoc. eapply EX_bind; [apply (H wds g h G F L u Hu)|]. apply Hf. exact G.
Qed.

Lemma curve_x : forall c k k0, curve_ok c false k ->
  RX (load_curve c false k0) (map size_word [cv_tag k; cv_type k; cv_degree k; cv_ncp k; cv_nknots k; cv_weights k])
    (encode false [map Real (cv_data k)]) k.
Proof.
  intros c k k0 H. pose proof (curve_entries_ok c k false H) as HE. destruct H as [_ Hl Hv Hm].
  rewrite encode_raw, raw_Real. unfold load_curve. cbn [map].
  do 5 (eapply RX_cons; [discriminate|apply RTw_size|]).
  eapply RX_last; [apply RTl_size|]. intros g G. cbv iota. apply eat1_gap_then; [exact G|].
  destruct (fits_resize Z c sz_double 0 (zlen (cv_data k)) (cv_data k0)) as (v1 & E1 & L1);
    [reflexivity|apply zlen_nonneg|exact Hm|].
  eapply RB_bind0; [intros; apply lift_ok; rewrite HE; exact E1|].
  eapply RB_doubles_last; [apply zlen_length; exact L1|eapply dbls_ok_b; exact Hv|]. destruct k. apply RB_ret.
Qed.

Lemma patch_x : forall c k k0, patch_ok c false k ->
  RX (load_patch c false k0)
    (map size_word [pt_tag k; pt_type k; pt_degu k; pt_degv k; pt_ncp k; pt_nu k; pt_nv k; pt_weights k])
    (encode false [map Real (pt_data k)]) k.
Proof.
  intros c k k0 H. pose proof (patch_entries_ok c k false H) as HE. destruct H as [_ Hl Hv Hm].
  rewrite encode_raw, raw_Real. unfold load_patch. cbn [map].
  do 7 (eapply RX_cons; [discriminate|apply RTw_size|]).
  eapply RX_last; [apply RTl_size|]. intros g G.
  destruct (fits_resize Z c sz_double 0 (zlen (pt_data k)) (pt_data k0)) as (v1 & E1 & L1);
    [reflexivity|apply zlen_nonneg|exact Hm|].
  eapply EX_bind0; [intros; apply lift_ok; rewrite HE; exact E1|].
  eapply EX_last.
  - apply eat1_gap_then; [exact G|]. apply rd_raw_array_RB; [apply zlen_length; exact L1|].
    intros o v Hin. apply rd_raw_double_RB. apply dbls_ok_b in Hv. rewrite Forall_forall in Hv. auto.
  - destruct k. apply RB_ret.
Qed.

(** Either encoding, with the whitespace after the data. *)
Lemma RX_RT : forall A (r : M A) ks t v h sep, RX r ks t v -> line_like ks h -> ws sep -> RT r (h ++ t ++ sep) v.
Proof.
  intros A r ks t v h sep H L W u Hu. exists sep. split; [exact W|].
  rewrite (app_assoc h), app_assoc. apply (EX_frame _ _ _ _ []). apply H; assumption.
Qed.

Lemma curve_any : forall c a k k0 t, curve_ok c a k -> curve_like a k t -> RT (load_curve c a k0) t k.
Proof.
  intros c [] k k0 t H L.
  - apply curve_w; assumption.
  - destruct L as (h & sep & L & W & ->). eapply RX_RT; [apply curve_x; exact H|exact L|exact W].
Qed.

Lemma patch_any : forall c a k k0 t, patch_ok c a k -> patch_like a k t -> RT (load_patch c a k0) t k.
Proof.
  intros c [] k k0 t H L.
  - apply patch_w; assumption.
  - destruct L as (h & sep & L & W & ->). eapply RX_RT; [apply patch_x; exact H|exact L|exact W].
Qed.

Lemma mapM_Forall2 : forall A B (f : A -> M B) (vs : list B) ts (xs : list A),
  List.length xs = List.length vs ->
  Forall2 (fun v t => forall x, RT (f x) t v) vs ts -> RT (mapM f xs) (List.concat ts) vs.
Proof.
  intros A B f vs ts xs HL H. revert xs HL. induction H as [|v t vs ts Hv _ IH]; intros [|x xs] HL; try discriminate HL.
  - apply RT_ret.
  - cbn [mapM List.concat]. eapply RT_bind; [apply Hv|].
    eapply RT_map; [apply IH; injection HL; auto|]. intros; reflexivity.
Qed.

(** ** Sections *)

Lemma rd_tok : forall u t sep r old, ws u -> word t -> ws sep -> sep <> [] ->
  rd_token old (opened (u ++ t ++ sep ++ r)) = (t, opened (sep ++ r)).
Proof.
  intros u t sep r old Hu [N F] W S. destruct t as [|x t]; [congruence|].
  inversion F as [|? ? Hx Hf']; subst. unfold rd_token. cbn [app].
  rewrite sentry_ws by assumption. cbn [IStream.rest opened].
  change (x :: t ++ sep ++ r) with ((x :: t) ++ (sep ++ r)).
  destruct sep as [|y sep]; [congruence|]. inversion W; subst.
  rewrite take_token_app by auto. reflexivity.
Qed.

Lemma end_word : forall name, word name -> word (str "$End" ++ name).
Proof.
  intros name [N F]. split; [discriminate|]. apply Forall_app. split; [repeat constructor|exact F].
Qed.

Lemma unknown_main : forall u name sep r spec, ws u -> word name -> ws sep -> sep <> [] ->
  unknown_at (Main spec (opened (u ++ (str "$" ++ name ++ sep) ++ r))) = unknown_of [name].
Proof.
  intros u name sep r spec Wu [N F] Ws Ns. cbn [unknown_at opened eofb].
  change (str "$" ++ name ++ sep) with ((x24 :: name) ++ sep). rewrite <- app_assoc.
  change {| IStream.rest := ?x; eofb := false; failb := false |} with (opened x).
  rewrite rd_tok; try assumption; [|split; [discriminate|constructor; [reflexivity|exact F]]].
  cbn [fst unknown_of filter]. destruct (known name); reflexivity.
Qed.

Lemma any_section_w : forall c name sep body sep' spec spec' p, word name ->
  ws sep -> sep <> [] -> ws sep' -> sep' <> [] ->
  EX (dispatch c (x24 :: name) spec) (sep ++ body) spec' p -> ws p ->
  LOADS1w c (unknown_of [name]) (str "$" ++ name ++ sep ++ body ++ str "$End" ++ name ++ sep') spec spec'.
Proof.
  intros c name sep body sep' spec spec' p Hn Hs Ns Hs' Ns' HD Hp u rest Hu.
  exists 3%nat, sep'. split; [exact Hs'|].
  eapply walk_S; [left; reflexivity| | |].
  3:{ replace (u ++ (str "$" ++ name ++ sep ++ body ++ str "$End" ++ name ++ sep') ++ rest)
        with (u ++ (str "$" ++ name ++ sep) ++ body ++ str "$End" ++ name ++ sep' ++ rest)
        by (rewrite <- !app_assoc; reflexivity).
      rewrite unknown_main by assumption. apply app_nil_r. }
  { eapply step_section with (buf := x24 :: name); [reflexivity| |reflexivity|].
    - change (str "$" ++ name ++ ?x) with ((x24 :: name) ++ x). rewrite <- !app_assoc.
      apply rd_tok; try assumption. destruct Hn as [N F]. split; [discriminate|]. constructor; [reflexivity|exact F].
    - rewrite app_assoc. rewrite HD; [reflexivity|discriminate]. }
  eapply walk_S; [right; reflexivity| | |reflexivity].
  { eapply step_skip; [reflexivity|discriminate|].
    rewrite (app_assoc (str "$End")). apply rd_tok; try assumption. apply end_word. exact Hn. }
  eapply walk_S; [right; reflexivity|apply step_found; right; reflexivity|constructor; right; reflexivity|reflexivity].
Qed.

Lemma any_section : forall c name sep body sep' spec spec' p, word name -> known name = true ->
  ws sep -> sep <> [] -> ws sep' -> sep' <> [] ->
  EX (dispatch c (x24 :: name) spec) (sep ++ body) spec' p -> ws p ->
  LOADS1 c (str "$" ++ name ++ sep ++ body ++ str "$End" ++ name ++ sep') spec spec'.
Proof.
  intros c name sep body sep' spec spec' p Hn K Hs Ns Hs' Ns' HD Hp.
  pose proof (any_section_w c name sep body sep' spec spec' p Hn Hs Ns Hs' Ns' HD Hp) as H.
  cbn [unknown_of filter] in H. rewrite K in H. exact H.
Qed.

Lemma any_section_RT : forall c name sep body sep' spec spec', word name -> known name = true ->
  ws sep -> sep <> [] -> ws sep' -> sep' <> [] ->
  RT (dispatch c (x24 :: name) spec) body spec' ->
  LOADS1 c (str "$" ++ name ++ sep ++ body ++ str "$End" ++ name ++ sep') spec spec'.
Proof.
  intros c name sep body sep' spec spec' Hn K Hs Ns Hs' Ns' H. destruct (H sep Hs) as (p & Wp & E).
  eapply any_section; eassumption.
Qed.

Lemma laid_ends : forall l t, laid_out l t -> l <> [] -> exists t' sep, t = t' ++ sep /\ ws sep /\ sep <> [].
Proof.
  intros l t H. induction H as [|w sep l t W N L IH]; intro NE; [congruence|].
  destruct l as [|w2 l].
  - inversion L; subst. exists w, sep. rewrite app_nil_r. auto.
  - destruct (IH ltac:(discriminate)) as (t' & s & -> & Ws & Ns). exists (w ++ sep ++ t'), s.
    rewrite <- !app_assoc. auto.
Qed.

Lemma skip_laid : forall c flag spec l t, laid_out l t -> Forall (fun w => word w /\ w <> flag) l ->
  forall buf u rest, buf <> flag -> ws u -> exists n u' buf', ws u' /\ buf' <> flag /\
    (u <> [] -> u' <> []) /\
    walk c (eq spec) [] n (Fwd flag buf spec (opened (u ++ t ++ rest))) (Fwd flag buf' spec (opened (u' ++ rest))).
Proof.
  intros c flag spec l t H. induction H as [|w sep l t W N L IH]; intros F buf u rest NB Wu.
  - exists 0%nat, u, buf. split; [exact Wu|]. split; [exact NB|]. split; [auto|constructor; reflexivity].
  - inversion F as [|? ? [Fw Fn] F']; subst.
    destruct (IH F' w sep rest Fn W) as (n & u' & buf' & W' & N' & NE & ST).
    exists (S n), u', buf'. split; [exact W'|]. split; [exact N'|]. split; [auto|].
    eapply walk_S; [reflexivity| |exact ST|reflexivity]. eapply step_skip; [reflexivity|exact NB|].
    rewrite <- !app_assoc. apply rd_tok; assumption.
Qed.

Lemma other_LOADS : forall c name sep body sep' spec, word name ->
  ws sep -> sep <> [] -> ws sep' -> sep' <> [] ->
  dispatch c (x24 :: name) spec = ret spec ->
  (exists l, Forall (fun w => word w /\ w <> str "$End" ++ name) l /\ laid_out l body) ->
  LOADS1w c (unknown_of [name]) (str "$" ++ name ++ sep ++ body ++ str "$End" ++ name ++ sep') spec spec.
Proof.
  intros c name sep body sep' spec Hn Hs Ns Hs' Ns' HD (l & F & L) u rest Hu.
  destruct (skip_laid c (str "$End" ++ name) spec l body L F [] sep (str "$End" ++ name ++ sep' ++ rest)
    ltac:(discriminate) Hs) as (n & u' & buf' & W' & N' & NE & ST).
  exists (1 + (n + 2))%nat, sep'. split; [exact Hs'|].
  eapply walk_S; [left; reflexivity| | |].
  3:{ replace (u ++ (str "$" ++ name ++ sep ++ body ++ str "$End" ++ name ++ sep') ++ rest)
        with (u ++ (str "$" ++ name ++ sep) ++ body ++ str "$End" ++ name ++ sep' ++ rest)
        by (rewrite <- !app_assoc; reflexivity).
      rewrite unknown_main by assumption. apply app_nil_r. }
  { eapply step_section with (buf := x24 :: name); [reflexivity| |reflexivity|].
    - change (str "$" ++ name ++ ?x) with ((x24 :: name) ++ x). rewrite <- !app_assoc.
      apply rd_tok; try assumption. destruct Hn as [N F0]. split; [discriminate|]. constructor; [reflexivity|exact F0].
    - rewrite HD. reflexivity. }
  eapply walk_trans0; [eapply walk_imp; [|exact ST]; intros s <-; left; reflexivity|].
  eapply walk_S; [left; reflexivity| | |reflexivity].
  { eapply step_skip; [reflexivity|exact N'|].
    rewrite (app_assoc (str "$End")). apply rd_tok; try assumption. apply end_word. exact Hn. }
  eapply walk_S; [left; reflexivity|apply step_found; right; reflexivity|constructor; left; reflexivity|reflexivity].
Qed.

Lemma loose_LOADS : forall c t spec, loose t -> LOADS1 c t spec spec.
Proof.
  intros c t spec (l & F & L). induction L as [|w sep l t W N L IH]; [apply LOADS_in_nil; left; reflexivity|].
  inversion F as [|? ? [Fw Fp] F']; subst. intros u rest Hu.
  destruct (IH F' sep rest W) as (n & u' & W' & ST). exists (S n), u'. split; [exact W'|].
  assert (R0 : rd_token [] (opened (u ++ (w ++ sep ++ t) ++ rest)) = (w, opened (sep ++ t ++ rest)))
    by (rewrite <- !app_assoc; apply rd_tok; assumption).
  eapply walk_S; [left; reflexivity| |exact ST|].
  - eapply step_word with (buf := w); [reflexivity|exact R0|apply SkipP.plain_not_section; exact Fp].
  - cbn [unknown_at]. rewrite R0. cbn [opened eofb fst]. destruct w as [|[] w]; try reflexivity.
    elim Fp; reflexivity.
Qed.

(** ** $MeshFormat *)

Definition format_of (v : string) (ascii : bool) : MeshFormat :=
  {| version := str v; file_type := if ascii then 0 else 1; data_size := 8 |}.

Lemma header_LOADS_any : forall c v ascii t spec, (v = "4.1" \/ v = "2.2")%string -> head_text v ascii t ->
  LOADS1 c t spec (set_format (format_of v ascii) spec).
Proof.
  intros c v ascii t spec V (sep & b & sep' & W & N & W' & N' & H & ->).
  change (LOADS1 c (str "$" ++ str "MeshFormat" ++ sep ++ b ++ str "$End" ++ str "MeshFormat" ++ sep') spec
    (set_format (format_of v ascii) spec)).
  assert (T : word (str "MeshFormat")) by (split; [discriminate|repeat constructor]).
  assert (T41 : word (str v)) by (destruct V; subst v; (split; [discriminate|repeat constructor])).
  assert (V1 : negb (bytes_eqb (str v) v22s) && negb (bytes_eqb (str v) v41s) = false) by (destruct V; subst v; reflexivity).
  assert (V2 : bytes_eqb (str v) v41s && negb (to_size 8 =? 8) = false) by (destruct V; subst v; reflexivity).
  destruct ascii.
  - apply any_section_RT; try assumption; try exact eq_refl.
    change (dispatch c (x24 :: str "MeshFormat") spec) with (load_mesh_format spec).
    revert b H. change (RTw (load_mesh_format spec) [eq (str v); int_word 0; int_word 8] (set_format (format_of v true) spec)).
    unfold load_mesh_format. cbv zeta. eapply RTw_cons; [apply RTw_token; exact T41|].
    rewrite V1. cbv iota.
    do 2 rw1. rewrite V2. cbv iota.
    change (negb (0 =? 0)) with false. cbv iota.
    eapply RTw_bind0; [intros; reflexivity|]. apply RTw_ret.
  - destruct H as (h & s1 & s2 & TH & w & IW & G & N1 & W2 & ->).
    eapply (any_section c _ _ _ _ _ _ s2); try assumption; try exact eq_refl.
    change (dispatch c (x24 :: str "MeshFormat") spec) with (load_mesh_format spec).
    apply (text_app_inv [eq (str v)] [int_word 1]) in TH. destruct TH as (h1 & h2 & -> & TH1 & TH2).
    destruct (RTw_token (str v) (version (mesh_format spec)) T41 h1 TH1 sep W) as (u1 & W1 & X1).
    destruct (RTw_int 1 (file_type (mesh_format spec)) h2 TH2 u1 W1) as (u2 & W3 & X2).
    assert (W4 : ws s1) by (eapply Forall_impl; [|exact G]; intros; apply gap_ws; assumption).
    rewrite <- !app_assoc. rewrite (app_assoc sep). unfold load_mesh_format. cbv zeta.
    eapply EX_bind; [exact X1|].
    rewrite V1. cbv iota.
    rewrite (app_assoc u1). eapply EX_bind; [exact X2|].
    rewrite (app_assoc w), (app_assoc u2).
    eapply EX_bind; [apply (rd_num_EX _ extract_int _ _ 8 u2 s1); [apply int_word_reads; exact IW|exact W3|exact W4|exact N1]|].
    rewrite V2. cbv iota.
    change (negb (1 =? 0)) with true. cbv iota.
    intros rest Hr. unfold bind at 1. unfold bind at 1. unfold op at 1.
    rewrite <- !app_assoc. rewrite HeaderP.eat_all_run.
    2:{ eapply Forall_impl; [|exact G]. intros x Hx. apply HeaderP.gap_eaten. exact Hx. }
    2:{ reflexivity. }
    cbn [at_end app]. unfold bind at 1.
    change (with_rest ?b (opened _)) with (opened b).
    change (x01 :: x00 :: x00 :: x00 :: s2 ++ rest) with (le 4 1 ++ s2 ++ rest).
    rewrite (rd_raw_int_RB 0 1); [reflexivity|split; vm_compute; discriminate|apply app_nonnil_r; exact Hr].
Qed.

(** ** What one section does *)

Definition after (s : MshSpec) (p : sec) : MshSpec :=
  match p with
  | SGroups l => set_physical_groups l s
  | SEntities e => set_entities e s
  | SNodes n => set_nodes n s
  | SElements e => set_elements e s
  | SNodeData d => set_node_data (node_data s ++ [d]) s
  | SElementData d => set_element_data (element_data s ++ [d]) s
  | SElementNodeData d => set_element_node_data (element_node_data s ++ [d]) s
  | SSplineFormat v => set_ns_version v s
  | SCurves l => set_curves l s
  | SPatches l => set_patches l s
  | SOther _ => s
  end.

Lemma data_any : forall c v ascii pn d b sep, v = v41s \/ v = v22s -> data_ok c ascii pn d -> (ascii = false -> small_data_tags d) ->
  data_like ascii pn d b -> ws sep ->
  exists p, ws p /\ EX (load_data c v (0 <? ftype ascii) pn) (sep ++ b) d p.
Proof.
  intros c v [] pn d b sep V H S L W.
  - apply (data_w c v pn d H b L sep W).
  - destruct L as (h & s & L & Ws & ->). exists s. split; [exact Ws|].
    rewrite (app_assoc h), (app_assoc sep). apply (EX_frame _ _ _ _ []).
    apply data_raw; auto.
Qed.

Lemma Forall2_and : forall A B (P Q : A -> Prop) (R R' : A -> B -> Prop) l l',
  Forall P l -> Forall2 R l l' -> (forall x y, P x -> R x y -> R' x y) -> Forall2 R' l l'.
Proof.
  intros A B P Q R R' l l' F H K. induction H as [|x y l l' H _ IH]; constructor.
  - inversion F; subst. auto.
  - inversion F; subst. auto.
Qed.

Lemma EX_sep : forall A B (m : M A) (g : A -> B) t v s, ws s -> EX m t v [] ->
  EX (bind m (fun x => ret (g x))) (t ++ s) (g v) s.
Proof. intros A B m g t v s W H. apply EX_map_ret. apply (EX_frame _ _ _ _ [] s). exact H. Qed.

Lemma extra_LOADS : forall c v ascii p t spec, v = v41s \/ v = v22s -> ~ raw_start p ->
  sec_text ascii p t -> sec_ok c ascii p -> fmt v ascii spec -> LOADS1w c (unknown_of [sec_name p]) t spec (after spec p).
Proof.
  intros c v ascii p t spec V NR (sep & b & sep' & W & N & W' & N' & _ & B & ->) OK [Fv Ft].
  destruct p; cbn [sec_name sec_body sec_ok after raw_start] in *; try (exfalso; apply NR; exact I).
  - apply any_section_RT; try assumption; try exact eq_refl; [split; [discriminate|repeat constructor]|].
    apply groups_w; assumption.
  - destruct OK as [OK SM]. destruct (data_any c v ascii false d b sep V OK SM B W) as (p & Wp & E).
    eapply (any_section c _ _ _ _ _ _ p); try assumption; try exact eq_refl; [split; [discriminate|repeat constructor]|].
    change (dispatch c (x24 :: str "NodeData") spec) with (load_node_data c spec). unfold load_node_data.
    rewrite Fv, Ft. apply (EX_map_ret _ _ _ (fun d => set_node_data (node_data spec ++ [d]) spec)). exact E.
  - destruct OK as [OK SM]. destruct (data_any c v ascii false d b sep V OK SM B W) as (p & Wp & E).
    eapply (any_section c _ _ _ _ _ _ p); try assumption; try exact eq_refl; [split; [discriminate|repeat constructor]|].
    change (dispatch c (x24 :: str "ElementData") spec) with (load_element_data c spec). unfold load_element_data.
    rewrite Fv, Ft. apply (EX_map_ret _ _ _ (fun d => set_element_data (element_data spec ++ [d]) spec)). exact E.
  - destruct OK as [OK SM]. destruct (data_any c v ascii true d b sep V OK SM B W) as (p & Wp & E).
    eapply (any_section c _ _ _ _ _ _ p); try assumption; try exact eq_refl; [split; [discriminate|repeat constructor]|].
    change (dispatch c (x24 :: str "ElementNodeData") spec) with (load_element_node_data c spec). unfold load_element_node_data.
    rewrite Fv, Ft. apply (EX_map_ret _ _ _ (fun d => set_element_node_data (element_node_data spec ++ [d]) spec)). exact E.
  - apply any_section_RT; try assumption; try exact eq_refl; [split; [discriminate|repeat constructor]|].
    change (dispatch c (x24 :: str "NanoSplineFormat") spec) with (load_nanospline_format spec).
    apply (RT_map_ret _ _ _ (fun v => set_ns_version v spec)). apply RTw_token; assumption.
  - destruct OK as (NS & OK & HM). destruct B as (h & ts & TH & F2 & ->).
    apply any_section_RT; try assumption; try exact eq_refl; [split; [discriminate|repeat constructor]|].
    change (dispatch c (x24 :: str "Curves") spec) with (load_curves c spec). unfold load_curves.
    rewrite NS, Ft, ftype_eqb.
    eapply RT_bind; [apply RTw_size_opt; exact TH|]. eapply RT_bind0; [intros; reflexivity|].
    destruct (fits_resize Curve c sz_Curve cv_default (zlen l) (curves spec)) as (v1 & E1 & L1);
      [reflexivity|apply zlen_nonneg|exact HM|].
    eapply RT_bind0; [intros; apply lift_ok; exact E1|].
    apply (RT_map_ret _ _ _ (fun v => set_curves v spec)).
    apply mapM_Forall2; [apply zlen_length; exact L1|].
    eapply (Forall2_and _ _ _ (fun _ => True)); [exact OK|exact F2|]. intros x y P Q k0. apply curve_any; assumption.
  - destruct OK as (NS & OK & HM). destruct B as (h & ts & TH & F2 & ->).
    apply any_section_RT; try assumption; try exact eq_refl; [split; [discriminate|repeat constructor]|].
    change (dispatch c (x24 :: str "Patches") spec) with (load_patches c spec). unfold load_patches.
    rewrite NS, Ft, ftype_eqb.
    eapply RT_bind; [apply RTw_size_opt; exact TH|]. eapply RT_bind0; [intros; reflexivity|].
    destruct (fits_resize Patch c sz_Patch pt_default (zlen l) (patches spec)) as (v1 & E1 & L1);
      [reflexivity|apply zlen_nonneg|exact HM|].
    eapply RT_bind0; [intros; apply lift_ok; exact E1|].
    apply (RT_map_ret _ _ _ (fun v => set_patches v spec)).
    apply mapM_Forall2; [apply zlen_length; exact L1|].
    eapply (Forall2_and _ _ _ (fun _ => True)); [exact OK|exact F2|]. intros x y P Q k0. apply patch_any; assumption.
  - destruct OK as [Hn K]. apply other_LOADS; try assumption.
    destruct K as [K|[NS K]]; [apply SkipP.dispatch_unknown; exact K|].
    destruct K as [<-|[<-|[]]].
    + change (dispatch c (x24 :: str "Curves") spec) with (load_curves c spec). unfold load_curves. rewrite NS. reflexivity.
    + change (dispatch c (x24 :: str "Patches") spec) with (load_patches c spec). unfold load_patches. rewrite NS. reflexivity.
Qed.

Lemma sec_LOADS : forall c ascii p t spec, sec_text ascii p t -> sec_ok c ascii p -> fmt v41s ascii spec ->
  LOADS1w c (unknown_of [sec_name p]) t spec (after spec p).
Proof.
  intros c ascii p t spec HT OK HF.
  assert (X : ~ raw_start p -> LOADS1w c (unknown_of [sec_name p]) t spec (after spec p)) by (intro NR; apply (extra_LOADS c v41s ascii); auto).
  destruct HT as (sep & b & sep' & W & N & W' & N' & RS & B & ->). destruct HF as [Fv Ft].
  destruct p; try solve [apply X; intros []]; clear X; cbn [sec_name sec_body sec_ok after raw_start] in *.
  - assert (D : dispatch c (x24 :: str "Entities") spec = load_entities c spec) by reflexivity.
    unfold load_entities in D. rewrite Fv, Ft in D. change (bytes_eqb v41s v41s) with true in D. cbv iota zeta in D.
    destruct ascii.
    + apply any_section_RT; try assumption; try exact eq_refl; [split; [discriminate|repeat constructor]|].
      rewrite D. change (ftype true =? 0) with true. cbv iota.
      apply (RT_map_ret _ _ _ (fun en => set_entities en spec)). apply entities_w; assumption.
    + destruct (RS eq_refl I) as (g & G & ->). destruct B as (s & Ws & ->).
      eapply (any_section c _ _ _ _ _ _ s); try assumption; try exact eq_refl; [split; [discriminate|repeat constructor]|].
      rewrite D. change (ftype false =? 0) with false. cbv iota. rewrite app_assoc.
      apply (EX_sep _ _ _ (fun en => set_entities en spec)); [exact Ws|]. apply entities_raw_load; assumption.
  - destruct OK as [OK OK2].
    assert (D : dispatch c (x24 :: str "Nodes") spec = load_nodes c spec) by reflexivity.
    unfold load_nodes in D. cbv zeta in D. rewrite Fv, Ft in D. change (bytes_eqb v41s v41s) with true in D. cbv iota in D.
    destruct ascii.
    + apply any_section_RT; try assumption; try exact eq_refl; [split; [discriminate|repeat constructor]|].
      rewrite D. change (ftype true =? 0) with true. cbv iota.
      apply (RT_map_ret _ _ _ (fun en => set_nodes en spec)). apply nodes_w; assumption.
    + destruct (RS eq_refl I) as (g & G & ->). destruct B as (s & Ws & ->).
      eapply (any_section c _ _ _ _ _ _ s); try assumption; try exact eq_refl; [split; [discriminate|repeat constructor]|].
      rewrite D. change (ftype false =? 0) with false. cbv iota. rewrite app_assoc.
      apply (EX_sep _ _ _ (fun en => set_nodes en spec)); [exact Ws|]. apply nodes_raw; assumption.
  - destruct OK as [OK OK2].
    assert (D : dispatch c (x24 :: str "Elements") spec = load_elements c spec) by reflexivity.
    unfold load_elements in D. cbv zeta in D. rewrite Fv, Ft in D. change (bytes_eqb v41s v41s) with true in D. cbv iota in D.
    destruct ascii.
    + apply any_section_RT; try assumption; try exact eq_refl; [split; [discriminate|repeat constructor]|].
      rewrite D. change (ftype true =? 0) with true. cbv iota.
      apply (RT_map_ret _ _ _ (fun en => set_elements en spec)). apply elements_w; assumption.
    + destruct (RS eq_refl I) as (g & G & ->). destruct B as (s & Ws & ->).
      eapply (any_section c _ _ _ _ _ _ s); try assumption; try exact eq_refl; [split; [discriminate|repeat constructor]|].
      rewrite D. change (ftype false =? 0) with false. cbv iota. rewrite app_assoc.
      apply (EX_sep _ _ _ (fun en => set_elements en spec)); [exact Ws|]. apply elements_raw; assumption.
Qed.

Lemma after_fmt : forall s p, mesh_format (after s p) = mesh_format s.
Proof. intros [] []; reflexivity. Qed.

Lemma secs_LOADS : forall c ascii ps r spec, secs_text ascii ps r -> Forall (sec_ok c ascii) ps -> fmt v41s ascii spec ->
  LOADSw c (fun s => exists k, s = fold_left after (firstn k ps) spec) (unknown_of (map sec_name ps)) r spec (fold_left after ps spec).
Proof.
  intros c ascii ps r spec H. revert spec. induction H as [|p ps l t r HL HT HR IH]; intros spec F FM.
  - apply LOADSw_nil. exists O. reflexivity.
  - inversion F; subst.
    change (unknown_of (map sec_name (p :: ps))) with (unknown_of ([sec_name p] ++ map sec_name ps)).
    unfold unknown_of. rewrite filter_app. fold (unknown_of [sec_name p]) (unknown_of (map sec_name ps)).
    apply (LOADSw_app c _ [] (unknown_of [sec_name p] ++ unknown_of (map sec_name ps)) l (t ++ r) spec spec).
    { eapply LOADSw_imp; [|apply loose_LOADS; exact HL]. intros s [-> | ->]; exists O; reflexivity. }
    eapply LOADSw_app.
    { eapply LOADSw_imp; [|eapply sec_LOADS; eassumption]. intros s [-> | ->]; [exists O; reflexivity|exists 1%nat; destruct ps; reflexivity]. }
    cbn [fold_left]. eapply LOADSw_imp; [|apply IH; [assumption|]].
    + intros s (k & ->). exists (S k). reflexivity.
    + unfold fmt. rewrite after_fmt. exact FM.
Qed.

(** ** The result *)

(** [content41] on top of an existing spec. *)
Definition content_from (s : MshSpec) (ps : list sec) : MshSpec := {|
  mesh_format := mesh_format s;
  nodes := last_of (fun p => match p with SNodes n => Some n | _ => None end) ps (nodes s);
  elements := last_of (fun p => match p with SElements e => Some e | _ => None end) ps (elements s);
  entities := last_of (fun p => match p with SEntities e => Some e | _ => None end) ps (entities s);
  physical_groups := last_of (fun p => match p with SGroups l => Some l | _ => None end) ps (physical_groups s);
  node_data := node_data s ++ all_of (fun p => match p with SNodeData d => Some d | _ => None end) ps;
  element_data := element_data s ++ all_of (fun p => match p with SElementData d => Some d | _ => None end) ps;
  element_node_data := element_node_data s ++
    all_of (fun p => match p with SElementNodeData d => Some d | _ => None end) ps;
  ns_version := last_of (fun p => match p with SSplineFormat v => Some v | _ => None end) ps (ns_version s);
  curves := last_of (fun p => match p with SCurves l => Some l | _ => None end) ps (curves s);
  patches := last_of (fun p => match p with SPatches l => Some l | _ => None end) ps (patches s) |}.

Lemma fold_content : forall ps s, fold_left after ps s = content_from s ps.
Proof.
  induction ps as [|p ps IH]; intro s.
  - unfold content_from, all_of. cbn [fold_left last_of flat_map]. rewrite !app_nil_r. destruct s; reflexivity.
  - cbn [fold_left]. rewrite IH. unfold content_from, all_of. cbn [last_of flat_map].
    destruct s; destruct p; cbn; rewrite <- ?app_assoc; reflexivity.
Qed.

Lemma content_fold : forall ascii ps, fold_left after ps (set_format (format_of "4.1" ascii) spec_default) = content41 ascii ps.
Proof. intros. rewrite fold_content. reflexivity. Qed.

Lemma file41_LOADS : forall c ascii ps b, Text41.file41 ascii ps b -> Forall (sec_ok c ascii) ps ->
  LOADSw c (fun s => s = spec_default \/ exists k, s = content41 ascii (firstn k ps)) (unknown_of (map sec_name ps)) b spec_default (content41 ascii ps).
Proof.
  intros c ascii ps b (l & h & r & l' & HL & HH & HR & HL' & ->) OK.
  set (P := fun s => _). rewrite <- (app_nil_r (unknown_of (map sec_name ps))).
  apply (LOADSw_app c P [] _ l (h ++ r ++ l') spec_default spec_default).
  { eapply LOADSw_imp; [|apply loose_LOADS; exact HL]. intros s [-> | ->]; left; reflexivity. }
  eapply (LOADSw_app c P [] (unknown_of (map sec_name ps) ++ []) h (r ++ l')).
  { eapply LOADSw_imp; [|apply (header_LOADS_any c "4.1" ascii); [left; reflexivity|exact HH]].
    intros s [-> | ->]; [left; reflexivity|right; exists O; rewrite <- content_fold; reflexivity]. }
  eapply LOADSw_app.
  { eapply LOADSw_imp; [|apply secs_LOADS with (ascii := ascii); [exact HR|exact OK|split; destruct ascii; reflexivity]].
    intros s (k & ->). right. exists k. apply content_fold. }
  rewrite content_fold. eapply LOADSw_imp; [|apply loose_LOADS; exact HL'].
  intros s [-> | ->]; right; exists (List.length ps); rewrite firstn_all; reflexivity.
Qed.

Lemma file41_loaded : forall c ascii ps b, Text41.file41 ascii ps b -> Forall (sec_ok c ascii) ps ->
  load_msh c b = Ok (content41 ascii ps).
Proof.
  intros c ascii ps b H OK. rewrite (LOADSw_file c _ _ _ (content41 ascii ps) (file41_LOADS c ascii ps b H OK)). reflexivity.
Qed.

(** ** Order and repetition *)

Lemma last_of_app : forall A (pick : sec -> option A) ps qs d,
  last_of pick (ps ++ qs) d = last_of pick qs (last_of pick ps d).
Proof. intros A pick ps qs. induction ps as [|p ps IH]; intro d; [reflexivity|]. apply IH. Qed.

Lemma all_of_app : forall A (pick : sec -> option A) ps qs, all_of pick (ps ++ qs) = all_of pick ps ++ all_of pick qs.
Proof. intros. apply flat_map_app. Qed.

Lemma content_swap : forall ascii ps p q qs, sec_name p <> sec_name q ->
  content41 ascii (ps ++ p :: q :: qs) = content41 ascii (ps ++ q :: p :: qs).
Proof.
  intros ascii ps p q qs N. unfold content41. rewrite !last_of_app, !all_of_app.
  change (p :: q :: qs) with ([p; q] ++ qs). change (q :: p :: qs) with ([q; p] ++ qs).
  rewrite !last_of_app, !all_of_app. cbn [last_of all_of flat_map app].
  destruct p, q; cbn [sec_name] in N; try congruence; rewrite ?app_nil_r; reflexivity.
Qed.

(** Whether [pick] is settled by the sections named [name]. *)
Lemma last_of_settled : forall A (pick : sec -> option A) ps q,
  In q ps -> (exists x, pick q = Some x) -> forall d d', last_of pick ps d = last_of pick ps d'.
Proof.
  intros A pick ps q H (x & E) d d'. apply in_split in H. destruct H as (l1 & l2 & ->).
  rewrite !last_of_app. cbn [last_of]. rewrite E. reflexivity.
Qed.

Lemma content_replaced : forall c ascii ps p qs q, sec_ok c ascii p -> sec_ok c ascii q ->
  replaced p -> In q qs -> sec_name q = sec_name p ->
  content41 ascii (ps ++ p :: qs) = content41 ascii (ps ++ qs).
Proof.
  intros c ascii ps p qs q OKp OKq R H N. unfold content41. rewrite !last_of_app, !all_of_app.
  change (p :: qs) with ([p] ++ qs). rewrite !last_of_app, !all_of_app.
  assert (KQ : forall n, word n /\ (~ In n known_sections \/ nanospline c = false /\ In n [str "Curves"; str "Patches"]) ->
           In n known_sections -> nanospline c = false /\ In n [str "Curves"; str "Patches"]) by (intros; tauto).
  destruct p; cbn [replaced] in R; try contradiction; cbn [last_of all_of flat_map app].
  all: try (destruct q; try discriminate N;
    [ f_equal; apply (last_of_settled _ _ _ _ H); eexists; reflexivity
    | exfalso; cbn [sec_name sec_ok] in *; subst; apply KQ in OKq;
      [destruct OKq as [NS K]; first [destruct OKp; congruence | cbn [In] in K; intuition discriminate] |
       cbn [known_sections map In]; tauto] ]).
  reflexivity.
Qed.

Lemma order_free : forall c ascii ps p q qs b b', Text41.file41 ascii (ps ++ p :: q :: qs) b ->
  Text41.file41 ascii (ps ++ q :: p :: qs) b' -> Forall (sec_ok c ascii) (ps ++ p :: q :: qs) ->
  sec_name p <> sec_name q -> load_msh c b = load_msh c b'.
Proof.
  intros c ascii ps p q qs b b' F F' OK N. rewrite (file41_loaded c _ _ _ F OK).
  rewrite (file41_loaded c _ _ _ F'); [f_equal; apply content_swap; exact N|].
  apply Forall_app in OK. destruct OK as [O1 O2]. inversion O2 as [|? ? X1 O3]; subst. inversion O3; subst.
  apply Forall_app. split; [exact O1|]. repeat constructor; assumption.
Qed.

Lemma last_counts : forall c ascii ps p qs q b b', Text41.file41 ascii (ps ++ p :: qs) b ->
  Text41.file41 ascii (ps ++ qs) b' -> Forall (sec_ok c ascii) (ps ++ p :: qs) ->
  replaced p -> In q qs -> sec_name q = sec_name p -> load_msh c b = load_msh c b'.
Proof.
  intros c ascii ps p qs q b b' F F' OK R H N. rewrite (file41_loaded c _ _ _ F OK).
  apply Forall_app in OK. destruct OK as [O1 O2]. inversion O2 as [|? ? X1 O3]; subst.
  rewrite (file41_loaded c _ _ _ F'); [|apply Forall_app; auto]. f_equal.
  rewrite Forall_forall in O3. apply (content_replaced c ascii ps p qs q X1 (O3 q H) R H N).
Qed.

Lemma encodings_agree : forall c ps b b', Text41.file41 true ps b -> Text41.file41 false ps b' ->
  Forall (sec_ok c true) ps -> Forall (sec_ok c false) ps ->
  exists s, load_msh c b = Ok s /\
    load_msh c b' = Ok (set_format {| version := version (mesh_format s); file_type := 1;
                                      data_size := data_size (mesh_format s) |} s).
Proof.
  intros c ps b b' F F' OK OK'. exists (content41 true ps). split; [apply file41_loaded; assumption|].
  rewrite (file41_loaded c _ _ _ F' OK'). reflexivity.
Qed.
