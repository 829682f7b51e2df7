(** Saved text files are tidy. *)

From Verif Require Import Model.Save Spec.Spacing Proofs.BytesP Proofs.RtBase Proofs.FormatP.

Ltac Zify.zify_post_hook ::= idtac.

(** ** DOS line ends *)

Lemma dos_app : forall a b, dos (a ++ b) = dos a ++ dos b.
Proof. intros. apply flat_map_app. Qed.

Lemma dos_same : forall w, ~ In x0a w -> dos w = w.
Proof.
  induction w as [|x w IH]; intro H; [reflexivity|]. cbn [dos flat_map]. destruct (Byte.eqb x x0a) eqn:E.
  - apply byte_eqb_eq in E. subst. exfalso. apply H. left. reflexivity.
  - cbn [app]. f_equal. apply IH. intro I. apply H. right. exact I.
Qed.

Lemma dos_blank : forall w, blank w -> blank (dos w).
Proof.
  intros w H. induction H as [|x w X H IH]; [constructor|]. cbn [dos flat_map]. destruct (Byte.eqb x x0a).
  - constructor; [reflexivity|]. constructor; [reflexivity|exact IH].
  - constructor; [exact X|exact IH].
Qed.

Lemma dos_some : forall w, w <> [] -> dos w <> [].
Proof. intros [|x w] H; [congruence|]. cbn [dos flat_map]. destruct (Byte.eqb x x0a); discriminate. Qed.

Lemma dos_laid : forall ws t, laid_out ws t -> Forall (fun w => ~ In x0a w) ws -> laid_out ws (dos t).
Proof.
  intros ws t L. induction L as [|w sep l t B N L IH]; intro F; [constructor|]. rewrite !dos_app, (dos_same w (Forall_inv F)).
  constructor; [apply dos_blank; exact B|apply dos_some; exact N|]. apply IH. exact (Forall_inv_tail F).
Qed.

Theorem dos_respaced : forall ws b, tidy ws -> Forall (fun w => ~ In x0a w) ws -> typed ws b -> respaced b (dos b).
Proof.
  intros ws b T F (u & t & U & L & ->). exists ws. split; [exact T|]. split; [exists u, t; auto|].
  exists (dos u), (dos t). split; [apply dos_blank; exact U|]. split; [apply dos_laid; assumption|apply dos_app].
Qed.

(** ** Words of a saved file *)

Definition quiet (w : bytes) : Prop := item w /\ ~ In x0a w /\ ~ exists p, w = p ++ str "$MeshFormat".

Definition num_char (b : byte) : bool :=
  is_digit b || Byte.eqb b x2d || Byte.eqb b x2b || Byte.eqb b x2e || Byte.eqb b x65 || Byte.eqb b x69 || Byte.eqb b x6e || Byte.eqb b x66 || Byte.eqb b x61.

Lemma num_char_ok : forall b, num_char b = true -> is_ws b = false /\ b <> x22 /\ b <> x24.
Proof. intros b H. destruct b; try discriminate H; (split; [reflexivity|split; discriminate]). Qed.

(** Neither quotes nor section names. *)
Definition calm (w : bytes) : Prop := Forall (fun b => is_ws b = false /\ b <> x22 /\ b <> x24) w.

Lemma calm_quiet : forall w, calm w -> w <> [] -> quiet w.
Proof.
  intros w H N. split; [|split].
  - left. split; [exact N|]. eapply Forall_impl; [|exact H]. intros a (A & B & _). split; assumption.
  - intro I. unfold calm in H. rewrite Forall_forall in H. destruct (H _ I) as (A & _). discriminate.
  - intros (p & ->). apply Forall_app in H. destruct H as (_ & H). apply Forall_inv in H. destruct H as (_ & _ & H). apply H. reflexivity.
Qed.

Lemma digit_chr_num : forall d, num_char (digit_chr d) = true.
Proof. intro d. unfold digit_chr. repeat match goal with |- context [if ?b then _ else _] => destruct b end; reflexivity. Qed.

Definition nums (w : bytes) : Prop := Forall (fun b => num_char b = true) w.
Lemma nums_chrs : forall l, nums (map digit_chr l).
Proof. intro l. apply Forall_map. apply Forall_forall. intros d _. apply digit_chr_num. Qed.
Lemma nums_zeros : forall n, nums (repeat x30 n).
Proof. intro n. apply Forall_forall. intros b I. apply repeat_spec in I. subst. reflexivity. Qed.
Lemma nums_cons : forall b w, num_char b = true -> nums w -> nums (b :: w).
Proof. intros. constructor; assumption. Qed.
Lemma nums_app : forall a b, nums a -> nums b -> nums (a ++ b).
Proof. intros. apply Forall_app. split; assumption. Qed.

Lemma nums_Z : forall z, nums (show_Z z).
Proof. intro z. unfold show_Z, show_nonneg. destruct (z <? 0); [apply nums_cons; [reflexivity|]|]; apply nums_chrs. Qed.

Lemma nums_exp : forall X, nums (show_exp X).
Proof.
  intro X. unfold show_exp, show_nonneg. cbv zeta. apply nums_cons; [reflexivity|]. apply nums_cons; [destruct (X <? 0); reflexivity|].
  destruct (Z.abs X <? 10); [apply nums_cons; [reflexivity|]|]; apply nums_chrs.
Qed.

Lemma nums_g : forall D X, nums (show_g D X).
Proof.
  intros D X. unfold show_g. cbv zeta. generalize (strip_zeros (six_digits D)). intro ds. unfold chrs.
  destruct ((-4 <=? X) && (X <? 6)); [destruct (X <? 0)|].
  - apply nums_cons; [reflexivity|]. apply nums_cons; [reflexivity|]. apply nums_app; [apply nums_zeros|apply nums_chrs].
  - destruct (_ <=? _)%nat; [apply nums_app; [apply nums_chrs|apply nums_zeros]|].
    apply nums_app; [apply nums_chrs|]. apply nums_cons; [reflexivity|apply nums_chrs].
  - destruct ds as [|d [|d' ds]]; [constructor| |].
    + apply nums_cons; [apply digit_chr_num|apply nums_exp].
    + apply nums_cons; [apply digit_chr_num|]. apply nums_cons; [reflexivity|]. apply nums_app; [apply nums_chrs|apply nums_exp].
Qed.

Lemma nums_double : forall x, nums (show_double x).
Proof.
  intro x. unfold show_double. apply nums_app; [destruct (dneg x); repeat constructor|]. unfold show_mag.
  destruct (_ =? 0); [repeat constructor|]. destruct (_ =? inf_mag); [repeat constructor|]. destruct (_ <? _); [repeat constructor|].
  destruct (sci6 _) as [D X]. apply nums_g.
Qed.

Lemma nums_calm : forall w, nums w -> calm w.
Proof. intros w H. eapply Forall_impl; [|exact H]. intros a A. apply num_char_ok. exact A. Qed.

Lemma calm_field : forall f, calm (text_of f).
Proof. intros [z|z|x]; apply nums_calm; [apply nums_Z|apply nums_Z|apply nums_double]. Qed.

(** ** Text made of such words *)

Definition hushed (b : bytes) : Prop := exists ws, Forall quiet ws /\ typed ws b.

Lemma laid_blank : forall ws t u, laid_out ws t -> blank u -> ws <> [] -> laid_out ws (t ++ u).
Proof.
  intros ws t u L U. induction L as [|w sep l t B N L IH]; intro W; [congruence|]. rewrite <- !app_assoc. destruct l as [|x l].
  - inversion L; subst. cbn [app]. rewrite <- (app_nil_r (sep ++ u)). constructor; [apply Forall_app; split; assumption| |constructor].
    destruct sep; [congruence|discriminate].
  - constructor; [exact B|exact N|]. apply IH. discriminate.
Qed.

Lemma laid_app : forall a s b t, laid_out a s -> laid_out b t -> laid_out (a ++ b) (s ++ t).
Proof.
  intros a s b t L M. induction L as [|w sep l s B N L IH]; [exact M|]. rewrite <- !app_assoc. cbn [app]. constructor; assumption.
Qed.

Lemma typed_app : forall a s b t, typed a s -> typed b t -> typed (a ++ b) (s ++ t).
Proof.
  intros a s b t (u & x & U & L & ->) (v & y & V & M & ->). destruct a as [|w a].
  - inversion L; subst. exists (u ++ v), y. split; [apply Forall_app; split; assumption|]. split; [exact M|]. rewrite app_nil_r, app_assoc. reflexivity.
  - exists u, ((x ++ v) ++ y). split; [exact U|]. split; [|rewrite <- !app_assoc; reflexivity].
    apply laid_app; [|exact M]. apply laid_blank; [exact L|exact V|discriminate].
Qed.

Lemma hush_app : forall a b, hushed a -> hushed b -> hushed (a ++ b).
Proof. intros a b (v & V & L) (w & W & M). exists (v ++ w). split; [apply Forall_app; split; assumption|apply typed_app; assumption]. Qed.

Lemma hush_nil : hushed [].
Proof. exists []. split; [constructor|]. exists [], []. split; [constructor|]. split; [constructor|reflexivity]. Qed.

Lemma hush_flat : forall A (f : A -> bytes) l, Forall (fun x => hushed (f x)) l -> hushed (flat_map f l).
Proof. intros A f l H. induction H as [|x l X H IH]; [apply hush_nil|]. cbn [flat_map]. apply hush_app; assumption. Qed.

(** One word and whitespace. *)
Lemma hush_word : forall w sep, quiet w \/ w = [] -> blank sep -> sep <> [] -> hushed (w ++ sep).
Proof.
  intros w sep [Q| ->] B N.
  - exists [w]. split; [constructor; [exact Q|constructor]|]. exists [], (w ++ sep). split; [constructor|]. split; [|reflexivity].
    rewrite <- (app_nil_r sep). constructor; [exact B|exact N|constructor].
  - exists []. split; [constructor|]. exists sep, []. split; [exact B|]. split; [constructor|symmetry; apply app_nil_r].
Qed.

Lemma hush_line : forall ws, Forall (fun w => quiet w \/ w = []) ws -> hushed (text_line ws).
Proof.
  intros ws H. unfold text_line. destruct ws as [|w l]; [apply (hush_word [] nl); [right; reflexivity|repeat constructor|discriminate]|].
  revert w H. induction l as [|x l IH]; intros w H; cbn [flat_map].
  - cbn [app]. apply hush_word; [exact (Forall_inv H)|repeat constructor|discriminate].
  - replace (w ++ ((str " " ++ x) ++ flat_map (fun x0 => str " " ++ x0) l) ++ nl) with ((w ++ str " ") ++ (x ++ flat_map (fun x0 => str " " ++ x0) l ++ nl)).
    + apply hush_app; [apply hush_word; [exact (Forall_inv H)|repeat constructor|discriminate]|apply IH; exact (Forall_inv_tail H)].
    + rewrite <- !app_assoc. reflexivity.
Qed.

Lemma calm_may : forall w, calm w -> quiet w \/ w = [].
Proof. intros w H. destruct w as [|x w]; [right; reflexivity|]. left. apply calm_quiet; [exact H|discriminate]. Qed.

Lemma hush_fields : forall l, hushed (text_line (map text_of l)).
Proof. intro l. apply hush_line. apply Forall_map, Forall_forall. intros f _. apply calm_may, calm_field. Qed.

Lemma hush_encode : forall l, hushed (encode true l).
Proof. intro l. apply hush_flat, Forall_forall. intros r _. apply hush_fields. Qed.

Lemma hush_count : forall z, hushed (text_line [show_Z z]).
Proof. intro z. apply (hush_fields [Size z]). Qed.

Lemma quoted_quiet : forall n, plain_name n -> quiet (in_quotes n).
Proof.
  intros n (A & B). split; [right; exists n; split; [reflexivity|exact A]|]. split.
  - unfold in_quotes. cbn [app]. intros [I|I]; [discriminate|]. apply in_app_or in I. destruct I as [I|[I|[]]]; [|discriminate].
    apply in_flat_map in I. destruct I as (b & Ib & I). destruct (Byte.eqb b x22); [destruct I as [I|[I|[]]]; discriminate|].
    destruct (Byte.eqb b x5c); [destruct I as [I|[I|[]]]; discriminate|]. destruct I as [->|[]]. contradiction.
  - intros (p & E). unfold in_quotes in E. rewrite app_assoc in E. change (str "$MeshFormat") with (str "$MeshForma" ++ [x74]) in E.
    rewrite app_assoc in E. apply app_inj_tail in E. destruct E as (_ & E). discriminate.
Qed.

Lemma hush_groups : forall l, Forall (fun g => plain_name (pg_name g)) l -> hushed (groups_section l).
Proof.
  intros l H. apply hush_app; [apply hush_count|]. apply hush_flat. eapply Forall_impl; [|exact H]. intros g G. apply hush_line.
  constructor; [apply calm_may, nums_calm, nums_Z|]. constructor; [apply calm_may, nums_calm, nums_Z|].
  constructor; [left; apply quoted_quiet; exact G|constructor].
Qed.

Lemma hush_nodes : forall v n, hushed (nodes_section v true n).
Proof. intros v n. unfold nodes_section. destruct (bytes_eqb v _); [apply hush_app; [apply hush_count|]|]; apply hush_encode. Qed.

Lemma hush_elements : forall v n, hushed (elements_section v true n).
Proof. intros v n. unfold elements_section. destruct (bytes_eqb v _); [apply hush_app; [apply hush_count|]|]; apply hush_encode. Qed.

Lemma hush_data : forall p d, Forall plain_name (string_tags (d_header d)) -> hushed (data_section false p d).
Proof.
  intros p d H. unfold data_section, tags_section. apply hush_app; [|apply hush_encode]. apply hush_app; [apply hush_count|].
  apply hush_app; [|apply hush_encode]. apply hush_flat. eapply Forall_impl; [|exact H]. intros t Q. apply hush_line.
  constructor; [left; apply quoted_quiet; exact Q|constructor].
Qed.

Lemma hush_curves : forall l, hushed (text_line [show_Z (zlen l)] ++ flat_map (curve_section true) l).
Proof.
  intro l. apply hush_app; [apply hush_count|]. apply hush_flat, Forall_forall. intros k _. apply hush_app; apply hush_encode.
Qed.
Lemma hush_patches : forall l, hushed (text_line [show_Z (zlen l)] ++ flat_map (patch_section true) l).
Proof.
  intro l. apply hush_app; [apply hush_count|]. apply hush_flat, Forall_forall. intros k _. apply hush_app; apply hush_encode.
Qed.

(** ** Whole files *)

Lemma marker_quiet : forall n, calm n -> n <> str "MeshFormat" -> quiet (x24 :: n).
Proof.
  intros n C N. split; [|split].
  - left. split; [discriminate|]. constructor; [split; [reflexivity|discriminate]|]. eapply Forall_impl; [|exact C]. intros a (A & B & _). split; assumption.
  - intros [I|I]; [discriminate|]. unfold calm in C. rewrite Forall_forall in C. destruct (C _ I) as (A & _). discriminate.
  - intros (p & E). destruct p as [|x p].
    + cbn [app] in E. injection E as E. contradiction.
    + injection E as E1 E2. unfold calm in C. rewrite E2 in C. apply Forall_app in C. destruct C as (_ & C). apply Forall_inv in C. destruct C as (_ & _ & C). apply C. reflexivity.
Qed.

Lemma hush_frame : forall n b, calm n -> n <> str "MeshFormat" -> hushed b -> hushed (frame n b).
Proof.
  intros n b C N H. unfold frame, opening.
  assert (CE : calm (str "End" ++ n)) by (apply Forall_app; split; [repeat (constructor; [split; [reflexivity|split; discriminate]|]); constructor|exact C]).
  replace ((str "$" ++ n ++ nl) ++ b ++ str "$End" ++ n ++ nl) with (((x24 :: n) ++ nl) ++ b ++ ((x24 :: str "End" ++ n) ++ nl))
    by (cbn [app]; rewrite <- !app_assoc; reflexivity).
  apply hush_app; [apply hush_word; [left; apply marker_quiet; assumption|repeat constructor|discriminate]|].
  apply hush_app; [exact H|]. apply hush_word; [left; apply marker_quiet; [exact CE|discriminate]|repeat constructor|discriminate].
Qed.

Section Saved.
Context (c : cfg) (s : MshSpec).
Context (HT : file_type (mesh_format s) = 0).
Context (HV : calm (version (mesh_format s)) /\ version (mesh_format s) <> []).
Context (HN : plain_names s).

(** Sections other than the header. *)
Definition silent (n b : bytes) : Prop := calm n /\ n <> str "MeshFormat" /\ hushed b.

Ltac calms := repeat (constructor; [split; [reflexivity|split; discriminate]|]); constructor.

Lemma silent_frames : forall ns bs, Forall2 silent ns bs -> hushed (frames ns bs).
Proof.
  intros ns bs H. unfold frames. induction H as [|n b ns bs (C & N & H) F IH]; [apply hush_nil|]. cbn [combine map concat fst snd].
  apply hush_app; [apply hush_frame; assumption|exact IH].
Qed.

Lemma when_silent : forall x n b, silent n b -> Forall2 silent (when x [n]) (when x [b]).
Proof. intros [|] n b H; repeat constructor; apply H. Qed.

Lemma data_silent : forall n p l, calm n -> n <> str "MeshFormat" ->
  Forall (fun d => Forall plain_name (string_tags (d_header d))) l ->
  Forall2 silent (map (fun _ => n) l) (map (data_section false p) l).
Proof.
  intros n p l C N H. induction H as [|d l D H IH]; [constructor|]. cbn [map]. constructor; [|exact IH].
  split; [exact C|]. split; [exact N|]. apply hush_data. exact D.
Qed.

Lemma rest_silent : Forall2 silent (tl (section_names c s)) (tl (section_bodies msh c s)).
Proof.
  destruct HN as (HG & HDt & HNs). apply Forall_app in HDt. destruct HDt as (D1 & HDt). apply Forall_app in HDt. destruct HDt as (D2 & D3).
  unfold section_names, section_bodies. cbv zeta. rewrite HT. change (0 =? 0) with true. change (0 <? 0) with false. cbn [tl app].
  cbn [b_groups b_entities b_nodes b_elements b_data b_nanospline b_curves b_patches msh].
  apply Forall2_app. { apply when_silent. split; [calms|]. split; [discriminate|]. apply hush_groups. exact HG. }
  apply Forall2_app. { apply when_silent. split; [calms|]. split; [discriminate|]. apply hush_encode. }
  apply Forall2_app. { apply when_silent. split; [calms|]. split; [discriminate|]. apply hush_nodes. }
  apply Forall2_app. { apply when_silent. split; [calms|]. split; [discriminate|]. apply hush_elements. }
  apply Forall2_app. { apply data_silent; [calms|discriminate|exact D1]. }
  apply Forall2_app. { apply data_silent; [calms|discriminate|exact D2]. }
  apply Forall2_app. { apply data_silent; [calms|discriminate|exact D3]. }
  destruct (nanospline c); [|constructor]. cbn [when].
  constructor. { split; [calms|]. split; [discriminate|]. apply hush_line. constructor; [apply calm_may; exact HNs|constructor]. }
  apply Forall2_app; apply when_silent; (split; [calms|]; split; [discriminate|]); [apply hush_curves|apply hush_patches].
Qed.

Definition header_words : list bytes := [str "$MeshFormat"; version (mesh_format s); str "0"].

Lemma header_typed : forall b, frame (str "MeshFormat") (format_section (mesh_format s)) ++ b =
  (str "$MeshFormat" ++ nl ++ version (mesh_format s) ++ str " " ++ str "0" ++ str " ") ++
  (show_Z (data_size (mesh_format s)) ++ nl) ++ (str "$EndMeshFormat" ++ nl) ++ b.
Proof.
  intro b. unfold format_section. rewrite HT. change (0 =? 1) with false. unfold frame, opening, text_line. cbn [flat_map].
  change (show_Z 0) with (str "0"). rewrite !app_nil_r, <- !app_assoc. reflexivity.
Qed.

Lemma header_laid : laid_out header_words (str "$MeshFormat" ++ nl ++ version (mesh_format s) ++ str " " ++ str "0" ++ str " ").
Proof.
  apply (laid_cons (str "$MeshFormat") nl); [repeat constructor|discriminate|].
  apply (laid_cons (version (mesh_format s)) (str " ")); [repeat constructor|discriminate|].
  apply (laid_cons (str "0") (str " ") _ []); [repeat constructor|discriminate|constructor].
Qed.

Theorem saved_words : exists ws, tidy ws /\ Forall (fun w => ~ In x0a w) ws /\
  typed ws (frames (section_names c s) (section_bodies msh c s)).
Proof.
  assert (QE : quiet (str "$EndMeshFormat")) by (apply (marker_quiet (str "EndMeshFormat")); [calms|discriminate]).
  assert (H : hushed ((show_Z (data_size (mesh_format s)) ++ nl) ++ (str "$EndMeshFormat" ++ nl) ++
    frames (tl (section_names c s)) (tl (section_bodies msh c s)))).
  { apply hush_app; [apply hush_word; [apply calm_may, nums_calm, nums_Z|repeat constructor|discriminate]|].
    apply hush_app; [apply hush_word; [left; exact QE|repeat constructor|discriminate]|]. apply silent_frames, rest_silent. }
  destruct H as (ws & Q & T). destruct HV as (HC & HE).
  assert (QV : quiet (version (mesh_format s))) by (apply calm_quiet; assumption).
  assert (Q0 : quiet (str "0")) by (apply calm_quiet; [calms|discriminate]).
  assert (QT : Forall quiet (tl header_words ++ ws)) by (repeat (constructor; [assumption|]); assumption).
  exists (header_words ++ ws). split; [split|split].
  - constructor; [left; split; [discriminate|]; repeat (constructor; [split; [reflexivity|discriminate]|]); constructor|].
    eapply Forall_impl; [|exact QT]. intros a (A & _). exact A.
  - intros l p v w r E. destruct l as [|x l].
    + cbn [app header_words] in E. injection E as _ _ E _. subst w. split; [|split; discriminate].
      exists [], false, [x30], (0 + 1), (10 * 0 + 0). split; [reflexivity|]. split; [constructor|].
      split; [apply (digits_snoc [] 0 0 x30 0); [constructor|split; [lia|reflexivity]]|]. split; [lia|reflexivity].
    + cbn [app header_words] in E. injection E as _ E. exfalso.
      cbn [tl header_words app] in QT. rewrite E in QT. apply Forall_app in QT. destruct QT as (_ & QT).
      apply Forall_inv in QT. destruct QT as (_ & _ & QT). apply QT. exists p. reflexivity.
  - constructor; [intro I; cbn in I; repeat (destruct I as [I|I]; [discriminate|]); exact I|].
    eapply Forall_impl; [|exact QT]. intros a (_ & A & _). exact A.
  - replace (frames (section_names c s) (section_bodies msh c s)) with
      (frame (str "MeshFormat") (format_section (mesh_format s)) ++ frames (tl (section_names c s)) (tl (section_bodies msh c s))) by reflexivity.
    rewrite header_typed. apply typed_app; [|exact T]. eexists [], _. split; [constructor|]. split; [exact header_laid|reflexivity].
Qed.
End Saved.
