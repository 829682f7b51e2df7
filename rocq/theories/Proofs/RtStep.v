(** One reading step at a time, and bridges to the specification's vocabulary. *)

From Verif Require Import Model.Save Spec.Consistent Proofs.BytesP Proofs.RtBase Proofs.ShowP
  Proofs.WriteP.

Ltac Zify.zify_post_hook ::= idtac.

Ltac nonnil := first [discriminate | assumption].

(** What is read back for a double, and that it is read back from what is printed. *)
Class rounder := rounder_of : dbl -> dbl.
#[global] Hint Extern 100 rounder => exact ascii_round : typeclass_instances.

Class reads_back (print : printer) (back : rounder) : Prop :=
  reading_back : forall x, size_ok x -> is_finite x = true -> reads extract_double (print x) (back x).

#[global] Instance reads_back_six : reads_back show_double ascii_round := reads_double.

Lemma rd_back_RT : forall {print : printer} {back : rounder} {RB : reads_back print back} old x sep,
  size_ok x -> is_finite x = true -> ws sep -> sep <> [] -> RT (op (rd_double old)) (print x ++ sep) (back x).
Proof. intros. apply rd_num_RT; auto. Qed.

(** ** Text *)

Section Steps.
Context {B : Type}.
Implicit Types (f : Z -> M B) (g : option Z -> M B).

Lemma RT_int : forall old z sep f t b, int_ok z -> ws sep -> sep <> [] ->
  RT (f z) t b -> RT (bind (op (rd_int old)) f) (show_Z z ++ sep ++ t) b.
Proof. intros. rewrite app_assoc. eapply RT_bind; [apply rd_int_RT|]; eassumption. Qed.

Lemma RT_size : forall old z sep f t b, size_ok z -> ws sep -> sep <> [] ->
  RT (f z) t b -> RT (bind (op (rd_size old)) f) (show_Z z ++ sep ++ t) b.
Proof. intros. rewrite app_assoc. eapply RT_bind; [apply rd_size_RT|]; eassumption. Qed.

Lemma RT_int_opt : forall old z sep g t b, int_ok z -> ws sep -> sep <> [] ->
  RT (g (Some z)) t b -> RT (bind (op (rd_int_opt old)) g) (show_Z z ++ sep ++ t) b.
Proof. intros. rewrite app_assoc. eapply RT_bind; [apply rd_int_opt_RT|]; eassumption. Qed.

Lemma RT_size_opt : forall old z sep g t b, size_ok z -> ws sep -> sep <> [] ->
  RT (g (Some z)) t b -> RT (bind (op (rd_size_opt old)) g) (show_Z z ++ sep ++ t) b.
Proof. intros. rewrite app_assoc. eapply RT_bind; [apply rd_size_opt_RT|]; eassumption. Qed.

Lemma RT_double : forall {print : printer} {back : rounder} {RB : reads_back print back} old x sep f t b,
  size_ok x -> is_finite x = true -> ws sep -> sep <> [] ->
  RT (f (back x)) t b -> RT (bind (op (rd_double old)) f) (print x ++ sep ++ t) b.
Proof. intros. rewrite app_assoc. eapply RT_bind; [apply rd_back_RT|]; eassumption. Qed.

Lemma RT_quoted : forall old s sep (f : bytes -> M B) t b, ws sep ->
  RT (f s) t b -> RT (bind (op (rd_quoted old)) f) (quoted s ++ sep ++ t) b.
Proof. intros. rewrite app_assoc. eapply RT_bind; [apply rd_quoted_RT|]; eassumption. Qed.

Lemma RT_token : forall old s sep (f : bytes -> M B) t b, token s -> ws sep -> sep <> [] ->
  RT (f s) t b -> RT (bind (op (rd_token old)) f) (s ++ sep ++ t) b.
Proof. intros. rewrite app_assoc. eapply RT_bind; [apply rd_token_RT|]; eassumption. Qed.

Lemma RTe_int : forall old z sep f t b, int_ok z -> ws sep -> sep <> [] ->
  RTe (f z) t b -> RTe (bind (op (rd_int old)) f) (show_Z z ++ sep ++ t) b.
Proof. intros. rewrite app_assoc. eapply RTe_bind; [apply rd_int_RT|]; eassumption. Qed.

Lemma RTe_size : forall old z sep f t b, size_ok z -> ws sep -> sep <> [] ->
  RTe (f z) t b -> RTe (bind (op (rd_size old)) f) (show_Z z ++ sep ++ t) b.
Proof. intros. rewrite app_assoc. eapply RTe_bind; [apply rd_size_RT|]; eassumption. Qed.

Lemma RTe_size_opt : forall old z sep g t b, size_ok z -> ws sep -> sep <> [] ->
  RTe (g (Some z)) t b -> RTe (bind (op (rd_size_opt old)) g) (show_Z z ++ sep ++ t) b.
Proof. intros. rewrite app_assoc. eapply RTe_bind; [apply rd_size_opt_RT|]; eassumption. Qed.

Lemma RTe_token : forall old s sep (f : bytes -> M B) t b, token s -> ws sep -> sep <> [] ->
  RTe (f s) t b -> RTe (bind (op (rd_token old)) f) (s ++ sep ++ t) b.
Proof. intros. rewrite app_assoc. eapply RTe_bind; [apply rd_token_RT|]; eassumption. Qed.

(** Last item of a text. *)
Lemma RT_last : forall A (m : M A) (h : A -> M B) t a b, RT m t a -> RT (h a) [] b ->
  RT (bind m h) t b.
Proof. intros. rewrite <- (app_nil_r t). eapply RT_bind; eassumption. Qed.

(** ** Raw bytes *)

Lemma RB_int : forall old z f t b, int_ok z -> RB (f z) t b ->
  RB (bind (op (rd_raw_int old)) f) (le 4 z ++ t) b.
Proof. intros. eapply RB_bind; [apply rd_raw_int_RB|]; assumption. Qed.

Lemma RB_size : forall old z f t b, size_ok z -> RB (f z) t b ->
  RB (bind (op (rd_raw_size old)) f) (le 8 z ++ t) b.
Proof. intros. eapply RB_bind; [apply rd_raw_size_RB|]; assumption. Qed.

Lemma RB_double : forall old z f t b, size_ok z -> RB (f z) t b ->
  RB (bind (op (rd_raw_double old)) f) (le 8 z ++ t) b.
Proof. intros. eapply RB_bind; [apply rd_raw_double_RB|]; assumption. Qed.

Lemma RB_size_opt : forall old z g t b, size_ok z -> RB (g (Some z)) t b ->
  RB (bind (op (rd_raw_size_opt old)) g) (le 8 z ++ t) b.
Proof. intros. eapply RB_bind; [apply rd_raw_size_opt_RB|]; assumption. Qed.

Lemma RB_int_opt : forall old z g t b, int_ok z -> RB (g (Some z)) t b ->
  RB (bind (op (rd_raw_int_opt old)) g) (le 4 z ++ t) b.
Proof. intros. eapply RB_bind; [apply rd_raw_int_opt_RB|]; assumption. Qed.

Lemma RB_last : forall A (m : M A) (h : A -> M B) t a b, RB m t a -> RB (h a) [] b ->
  RB (bind m h) t b.
Proof. intros. rewrite <- (app_nil_r t). eapply RB_bind; eassumption. Qed.

Lemma RB_sizes : forall olds vs (h : list Z -> M B) t b, List.length olds = List.length vs ->
  Forall size_ok vs -> RB (h vs) t b ->
  RB (bind (rd_raw_array rd_raw_size olds) h) (List.concat (map (le 8) vs) ++ t) b.
Proof.
  intros olds vs h t b HL HF H. eapply RB_bind; [|exact H].
  apply rd_raw_array_RB; [exact HL|]. intros o v Hv. apply rd_raw_size_RB.
  rewrite Forall_forall in HF. auto.
Qed.

Lemma RB_into : forall sz n (f : Z -> istream -> Z * istream) olds (h : list Z -> M B) t b, 0 < sz -> n = sz * zlen olds ->
  RB (bind (rd_raw_array f olds) h) t b -> RB (bind (rd_raw_into sz n f olds) h) t b.
Proof.
  intros sz n f olds h t b Hs Hn H r Hr. specialize (H r Hr). unfold bind in *.
  rewrite rd_raw_into_full by assumption. exact H.
Qed.

Lemma RB_ints : forall olds vs (h : list Z -> M B) t b, List.length olds = List.length vs ->
  Forall int_ok vs -> RB (h vs) t b ->
  RB (bind (rd_raw_array rd_raw_int olds) h) (List.concat (map (le 4) vs) ++ t) b.
Proof.
  intros olds vs h t b HL HF H. eapply RB_bind; [|exact H].
  apply rd_raw_array_RB; [exact HL|]. intros o v Hv. apply rd_raw_int_RB.
  rewrite Forall_forall in HF. auto.
Qed.
End Steps.

(** ** Resizes *)

Lemma fits_resize : forall A c sz (d : A) n old, 0 < sz -> 0 <= n -> fits c sz n ->
  exists v, resize c sz d n old = Ok v /\ zlen v = n.
Proof. intros A c sz d n old Hs Hn [H1 H2]. apply resize_ok; assumption. Qed.

Lemma fits_size_ok : forall c sz A (l : list A), 0 < sz -> fits c sz (zlen l) -> size_ok (zlen l).
Proof.
  intros c sz A l Hs [H _]. split; [apply zlen_nonneg|].
  assert (PTRDIFF_MAX / sz <= PTRDIFF_MAX / 1) by (apply Z.div_le_compat_l; [discriminate|lia]).
  rewrite Z.div_1_r in H0. unfold PTRDIFF_MAX, two64 in *. lia.
Qed.

Lemma fits_bytes : forall c A (l : list A), fits c 8 (zlen l) -> 8 * zlen l <= PTRDIFF_MAX.
Proof.
  intros c A l [H _]. pose proof (Z.mul_div_le PTRDIFF_MAX 8 ltac:(lia)). lia.
Qed.

(** ** Specification bridges *)

Lemma finite_is_finite : forall x, size_ok x -> finite x -> is_finite x = true.
Proof.
  intros x [H1 H2] H. unfold finite in H. unfold is_finite. apply Z.ltb_lt.
  unfold dmag, inf_mag, two63, two64 in *.
  change (2 ^ 52) with 4503599627370496 in H. change (2 ^ 11) with 2048 in H.
  pose proof (Z.div_mod x 4503599627370496 ltac:(lia)) as D.
  pose proof (Z.mod_pos_bound x 4503599627370496 ltac:(lia)) as R.
  pose proof (Z.div_mod (x / 4503599627370496) 2048 ltac:(lia)) as D2.
  pose proof (Z.mod_pos_bound (x / 4503599627370496) 2048 ltac:(lia)) as R2.
  destruct (9223372036854775808 <=? x) eqn:E; [apply Z.leb_le in E|apply Z.leb_gt in E]; lia.
Qed.

Lemma is_finite_finite : forall x, size_ok x -> is_finite x = true -> finite x.
Proof.
  intros x [H1 H2] H F. unfold is_finite in H. apply Z.ltb_lt in H.
  unfold dmag, inf_mag, two63, two64 in *.
  change (2 ^ 52) with 4503599627370496 in F. change (2 ^ 11) with 2048 in F.
  pose proof (Z.div_mod x 4503599627370496 ltac:(lia)) as D.
  pose proof (Z.mod_pos_bound x 4503599627370496 ltac:(lia)) as R.
  pose proof (Z.div_mod (x / 4503599627370496) 2048 ltac:(lia)) as D2.
  pose proof (Z.mod_pos_bound (x / 4503599627370496) 2048 ltac:(lia)) as R2.
  destruct (9223372036854775808 <=? x) eqn:E; [apply Z.leb_le in E|apply Z.leb_gt in E]; lia.
Qed.

Lemma gmsh_nodes_spec : forall t n, gmsh_nodes t = Some n ->
  nodes_per_element t = Ok n /\ 1 <= n <= 56 /\ 1 <= t <= 31.
Proof.
  intros t n H. unfold gmsh_nodes, gmsh_family in H.
  destruct t as [|p|p]; try discriminate.
  do 5 (try discriminate; try match goal with q : positive |- _ => destruct q end);
    try discriminate; injection H as <-; repeat split; vm_compute; congruence.
Qed.

Lemma npe_gmsh : forall t n, nodes_per_element t = Ok n -> gmsh_nodes t = Some n.
Proof.
  intros t n H. unfold nodes_per_element, assert_supported in H.
  destruct ((t <=? 0) || (32 <=? t)) eqn:E; [discriminate|].
  apply orb_false_iff in E. destruct E as [E1 E2]. apply Z.leb_gt in E1. apply Z.leb_gt in E2.
  destruct t as [|p|p]; try lia.
  do 5 (try match goal with q : positive |- _ => destruct q end); try (exfalso; lia);
    vm_compute in H; injection H as <-; reflexivity.
Qed.

Lemma epn_ok : forall b, 0 <= node_width b <= INT_MAX ->
  entries_per_node (nb_parametric b) (nb_dim b) = Ok (node_width b).
Proof.
  intros b H. unfold entries_per_node, node_width in *.
  destruct (nb_parametric b =? 1);
    (match goal with |- (if INT_MAX <? ?k then _ else _) = _ =>
       replace (INT_MAX <? k) with false by (symmetry; apply Z.ltb_ge; lia) end);
    rewrite to_size_id by (unfold INT_MAX, two64 in *; lia); reflexivity.
Qed.

Lemma dbl_ok_a : forall x, dbl_ok true x -> size_ok x /\ is_finite x = true.
Proof. intros x [H1 H2]. split; [exact H1|]. apply finite_is_finite; auto. Qed.

Lemma mapM_doubles : forall {print : printer} {back : rounder} {RB : reads_back print back} vs t xs,
  spaced print vs t -> Forall (dbl_ok true) vs -> List.length xs = List.length vs ->
  RT (mapM (fun o => op (rd_double o)) xs) t (map back vs).
Proof.
  intros print back RB vs t xs H HF HL. eapply mapM_spaced; eauto.
  intros x v sep Hv Hs Hn. rewrite Forall_forall in HF. apply HF in Hv. apply dbl_ok_a in Hv.
  apply rd_back_RT; tauto.
Qed.

Lemma mapM_sizes : forall vs t xs, spaced show_Z vs t -> Forall size_ok vs ->
  List.length xs = List.length vs -> RT (mapM (fun o => op (rd_size o)) xs) t vs.
Proof.
  intros vs t xs H HF HL. rewrite <- (map_id vs). eapply mapM_spaced; eauto.
  intros x v sep Hv Hs Hn. rewrite Forall_forall in HF. apply rd_size_RT; auto.
Qed.

Lemma mapM_ints : forall vs t xs, spaced show_Z vs t -> Forall int_ok vs ->
  List.length xs = List.length vs -> RT (mapM (fun o => op (rd_int o)) xs) t vs.
Proof.
  intros vs t xs H HF HL. rewrite <- (map_id vs). eapply mapM_spaced; eauto.
  intros x v sep Hv Hs Hn. rewrite Forall_forall in HF. apply rd_int_RT; auto.
Qed.

Lemma fill_ok : forall A cnt (f : A -> M A) v, cnt = zlen v -> fill cnt f v = mapM f v.
Proof. intros A cnt f v ->. unfold fill. rewrite Z.eqb_refl. reflexivity. Qed.

Lemma zlen_length : forall A B (a : list A) (b : list B), zlen a = zlen b -> List.length a = List.length b.
Proof. unfold zlen. intros. lia. Qed.
