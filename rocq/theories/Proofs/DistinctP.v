(** Specs with the same file (C70). *)

From Verif Require Import Model.Save Spec.Distinct Spec.Rounding Proofs.RtBase Proofs.ShowP Proofs.RtStep Proofs.Rt41B Proofs.Rt41 Proofs.Rt22
  Proofs.RoundP Proofs.ElemP Proofs.AgreeP Proofs.StableP.
Ltac Zify.zify_post_hook ::= idtac.

Lemma Ok_eq : forall A (x y : A), Ok x = Ok y -> x = y.
Proof. intros A x y E. injection E as E. exact E. Qed.

Lemma same_file41 : forall c a a' s t, consistent41 c a s -> consistent41 c a' t ->
  fst (save_msh c s) = fst (save_msh c t) ->
  a = a' /\ via41 a ascii_round (nanospline c) s = via41 a ascii_round (nanospline c) t.
Proof.
  intros c a a' s t H1 H2 E.
  destruct (roundtrip41 c a s H1) as (b & S1 & L1). destruct (roundtrip41 c a' t H2) as (b' & S2 & L2).
  rewrite S1, S2 in E. cbn [fst] in E. subst b'. rewrite L1 in L2. apply Ok_eq in L2.
  assert (A : a = a').
  { pose proof (f_equal file_type (f_equal mesh_format L2)) as F. cbn [via41 mesh_format] in F.
    rewrite (ok41_type _ _ _ H1), (ok41_type _ _ _ H2) in F. destruct a, a'; congruence. }
  subst a'. split; [reflexivity|exact L2].
Qed.

Lemma same_file22 : forall c a a' s t, consistent22 c a s -> consistent22 c a' t ->
  fst (save_msh c s) = fst (save_msh c t) -> a = a' /\ same22 c a ascii_round s t.
Proof.
  intros c a a' s t H1 H2 E.
  destruct (roundtrip22 c a s H1) as (b & s' & S1 & L1 & K1). destruct (roundtrip22 c a' t H2) as (b' & t' & S2 & L2 & K2).
  rewrite S1, S2 in E. cbn [fst] in E. subst b'. rewrite L1 in L2. apply Ok_eq in L2. subst t'.
  assert (M : mesh_format s = mesh_format t) by (rewrite <- (k22_format _ _ _ _ _ K1); exact (k22_format _ _ _ _ _ K2)).
  assert (A : a = a').
  { pose proof (f_equal file_type M) as F. rewrite (ok22_type _ _ _ H1), (ok22_type _ _ _ H2) in F.
    destruct a, a'; congruence. }
  subst a'. split; [reflexivity|].
  pose proof (k22_data _ _ _ _ _ K1) as (D1 & D2 & D3). pose proof (k22_data _ _ _ _ _ K2) as (D1' & D2' & D3').
  pose proof (k22_splines _ _ _ _ _ K1) as P1. pose proof (k22_splines _ _ _ _ _ K2) as P2.
  split; [exact M| | | | | | |].
  - rewrite <- (k22_groups _ _ _ _ _ K1). exact (k22_groups _ _ _ _ _ K2).
  - rewrite <- (k22_nodes _ _ _ _ _ K1). exact (k22_nodes _ _ _ _ _ K2).
  - rewrite <- (k22_elements _ _ _ _ _ K1). exact (k22_elements _ _ _ _ _ K2).
  - rewrite <- D1. exact D1'.
  - rewrite <- D2. exact D2'.
  - rewrite <- D3. exact D3'.
  - intro N. rewrite N in P1, P2. rewrite P1 in P2. injection P2 as Q1 Q2 Q3. auto.
Qed.

Lemma versions_apart : forall c a a' s t, consistent41 c a s -> consistent22 c a' t ->
  fst (save_msh c s) <> fst (save_msh c t).
Proof.
  intros c a a' s t H1 H2 E.
  destruct (roundtrip41 c a s H1) as (b & S1 & L1). destruct (roundtrip22 c a' t H2) as (b' & t' & S2 & L2 & K2).
  rewrite S1, S2 in E. cbn [fst] in E. subst b'. rewrite L1 in L2. apply Ok_eq in L2. subst t'.
  pose proof (f_equal version (k22_format _ _ _ _ _ K2)) as F. cbn [via41 mesh_format] in F.
  rewrite (ok41_version _ _ _ H1), (ok22_version _ _ _ H2) in F. discriminate F.
Qed.

(** ** Specs that come back as they are *)

Notation still r l := (Forall (fun x => r x = x) l).

Lemma still_map : forall (r : dbl -> dbl) l, still r l -> map r l = l.
Proof. induction 1 as [|x l E _ IH]; [reflexivity|]. cbn [map]. rewrite E, IH. reflexivity. Qed.

Lemma map_still : forall A (f : A -> A) l, (forall x, In x l -> f x = x) -> map f l = l.
Proof. intros A f l H. rewrite <- (map_id l) at 2. apply map_ext_in. exact H. Qed.

Lemma still_in : forall r A (f : A -> list dbl) l x, still r (flat_map f l) -> In x l -> still r (f x).
Proof.
  intros r A f l x H I. rewrite Forall_forall in *. intros y Hy. apply H. apply in_flat_map. exists x. auto.
Qed.

Lemma via_list : forall a r l, (a = true -> still r l) -> map (via a r) l = l.
Proof.
  intros a r l H. destruct a; [|apply map_same; reflexivity]. apply (still_map r). apply H. reflexivity.
Qed.

Lemma data_still : forall a r d, still r (real_tags (d_header d)) ->
  (a = true -> still r (flat_map de_data (d_entries d))) ->
  (a = false -> forall e, In e (d_entries d) -> 0 <= de_tag e < 2 ^ 31) -> data_via a r d = d.
Proof.
  intros a r [[ss rs is] es]. cbn [d_header real_tags d_entries]. intros R E T. unfold data_via.
  cbn [d_header real_tags string_tags int_tags d_entries]. rewrite (still_map r rs R). f_equal.
  apply map_still. intros e He. unfold entry_via. rewrite via_list.
  - destruct a; [destruct e; reflexivity|]. rewrite tag32_small by (specialize (T eq_refl e He); unfold INT_MAX; lia).
    destruct e; reflexivity.
  - intro A. exact (still_in r _ de_data _ e (E A) He).
Qed.

Lemma comes_back : forall c a r s, written_out c a s -> still r (text_doubles a s) -> via41 a r (nanospline c) s = s.
Proof.
  intros c a r s [PN PE PT PS] S. unfold text_doubles in S. rewrite Forall_app in S. destruct S as [S0 S1].
  assert (DD : forall d, In d (all_data s) -> data_via a r d = d).
  { intros d Hd. apply data_still.
    - exact (still_in r _ (fun d => real_tags (d_header d)) _ d S0 Hd).
    - intros ->. rewrite !Forall_app in S1. destruct S1 as (_ & _ & _ & S1 & _).
      exact (still_in r _ (fun d => flat_map de_data (d_entries d)) _ d S1 Hd).
    - intros A e He. exact (PT A d e Hd He). }
  unfold all_data in DD.
  assert (D1 : map (data_via a r) (node_data s) = node_data s).
  { apply map_still. intros d Hd. apply DD. rewrite !in_app_iff. auto. }
  assert (D2 : map (data_via a r) (element_data s) = element_data s).
  { apply map_still. intros d Hd. apply DD. rewrite !in_app_iff. auto. }
  assert (D3 : map (data_via a r) (element_node_data s) = element_node_data s).
  { apply map_still. intros d Hd. apply DD. rewrite !in_app_iff. auto. }
  assert (NN : nodes_via a r (nodes s) = nodes s).
  { unfold nodes_via. destruct (n_num_nodes (nodes s) =? 0) eqn:E.
    - symmetry. apply PN. apply Z.eqb_eq. exact E.
    - rewrite map_still; [destruct (nodes s); reflexivity|]. intros b Hb. unfold node_block_via. rewrite via_list.
      + destruct b; reflexivity.
      + intros ->. rewrite !Forall_app in S1. destruct S1 as (S1 & _). exact (still_in r _ nb_data _ b S1 Hb). }
  assert (EE : elements_via (elements s) = elements s).
  { unfold elements_via. destruct (e_num_elements (elements s) =? 0) eqn:E; [|reflexivity].
    symmetry. apply PE. apply Z.eqb_eq. exact E. }
  assert (PP : map (point_via a r) (points (entities s)) = points (entities s)).
  { apply map_still. intros p Hp. unfold point_via, via. destruct a; [|destruct p; reflexivity].
    rewrite !Forall_app in S1. destruct S1 as (_ & S1 & _). pose proof (still_in r _ _ _ p S1 Hp) as S2.
    rewrite Forall_forall in S2. rewrite !S2 by (cbn [In]; auto 8). destruct p; reflexivity. }
  assert (EV : forall e, In e (curves_e (entities s) ++ surfaces_e (entities s) ++ volumes_e (entities s)) ->
    entity_via a r e = e).
  { intros e He. unfold entity_via, via. destruct a; [|destruct e; reflexivity].
    rewrite !Forall_app in S1. destruct S1 as (_ & _ & S1 & _). pose proof (still_in r _ _ _ e S1 He) as S2.
    rewrite Forall_forall in S2. rewrite !S2 by (cbn [In]; auto 8). destruct e; reflexivity. }
  assert (EN : entities_via a r (entities s) = entities s).
  { unfold entities_via. rewrite PP. rewrite !map_still; [destruct (entities s); reflexivity|..];
      intros e He; apply EV; rewrite !in_app_iff; auto. }
  assert (CV : (if nanospline c then map (curve_via a r) (curves s) else []) = curves s).
  { destruct (nanospline c); [|symmetry; apply PS; reflexivity]. apply map_still. intros k Hk. unfold curve_via.
    rewrite via_list; [destruct k; reflexivity|]. intros ->. rewrite !Forall_app in S1.
    destruct S1 as (_ & _ & _ & _ & S1 & _). exact (still_in r _ cv_data _ k S1 Hk). }
  assert (PV : (if nanospline c then map (patch_via a r) (patches s) else []) = patches s).
  { destruct (nanospline c); [|symmetry; apply PS; reflexivity]. apply map_still. intros k Hk. unfold patch_via.
    rewrite via_list; [destruct k; reflexivity|]. intros ->. rewrite !Forall_app in S1.
    destruct S1 as (_ & _ & _ & _ & _ & S1). exact (still_in r _ pt_data _ k S1 Hk). }
  assert (NV : (if nanospline c then ns_version s else str "1.0") = ns_version s).
  { destruct (nanospline c); [reflexivity|]. symmetry. apply PS. reflexivity. }
  unfold via41. rewrite NN, EE, EN, D1, D2, D3, CV, PV, NV. destruct s; reflexivity.
Qed.
