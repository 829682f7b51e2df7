(** Meshes made of parts are consistent, valid and regular. *)

From Verif Require Import Spec.Valid Proofs.RtBase Proofs.RtStep Proofs.ValidateP Proofs.TestRtP Spec.Built.
Ltac Zify.zify_post_hook ::= idtac.

Lemma from_length : forall n t, List.length (from t n) = n.
Proof. induction n; intro t; cbn; [reflexivity|]. rewrite IHn. reflexivity. Qed.

Lemma in_from : forall n t x, In x (from t n) <-> t <= x < t + Z.of_nat n.
Proof.
  induction n as [|n IH]; intros t x; cbn [from In].
  - split; [intros []|lia].
  - rewrite IH. lia.
Qed.

Lemma from_app : forall n m t, from t (n + m) = from t n ++ from (t + Z.of_nat n) m.
Proof.
  induction n as [|n IH]; intros m t; cbn [from Nat.add app].
  - f_equal. lia.
  - rewrite IH. do 3 f_equal. lia.
Qed.

Lemma total_cons : forall A (f : part -> list A) p ps, total f (p :: ps) = zlen (f p) + total f ps.
Proof. intros A f p ps. unfold total. cbn [flat_map]. apply zlen_app. Qed.

Lemma total_nonneg : forall A (f : part -> list A) ps, 0 <= total f ps.
Proof. intros A f ps. apply zlen_nonneg. Qed.

Lemma node_tags_from : forall ps t, flat_map nb_tags (node_blocks t ps) = from t (List.length (flat_map p_points ps)).
Proof.
  induction ps as [|p ps IH]; intro t; [reflexivity|]. cbn [node_blocks flat_map nb_tags]. rewrite IH, app_length, from_app.
  reflexivity.
Qed.

Lemma flat_xyz : forall l, zlen (flat_map xyz l) = 3 * zlen l.
Proof.
  induction l as [|[[x y] z] l IH]; [reflexivity|]. cbn [flat_map xyz]. rewrite zlen_app, IH, zlen_cons, !zlen_cons, zlen_nil. lia.
Qed.

(** ** The elements *)

Definition cell (p : part) (e t : Z) (k : list Z) : element :=
  {| el_dim := p_dim p; el_ent := p_entity p; el_type := p_type p; el_tag := e; el_nodes := map (Z.add t) k |}.
Fixpoint cells (p : part) (e t : Z) (l : list (list Z)) : list element :=
  match l with [] => [] | k :: r => cell p e t k :: cells p (e + 1) t r end.
Fixpoint all_cells (e t : Z) (ps : list part) : list element :=
  match ps with
  | [] => []
  | p :: r => cells p e t (p_cells p) ++ all_cells (e + zlen (p_cells p)) (t + zlen (p_points p)) r
  end.

Lemma cut_rows : forall b n l e t, Forall (fun k => List.length k = n) l ->
  map (element_of b) (cut (S n) (List.length l) (rows e t l)) =
  map (fun x => {| el_dim := eb_dim b; el_ent := eb_tag b; el_type := eb_type b; el_tag := el_tag x; el_nodes := el_nodes x |})
    (cells {| p_entity := 0; p_type := 0; p_points := []; p_cells := [] |} e t l).
Proof.
  intros b n. induction l as [|k l IH]; intros e t F; [reflexivity|].
  pose proof (Forall_inv F) as H. apply Forall_inv_tail in F. cbv beta in H.
  assert (L : List.length (map (Z.add t) k) = n) by (rewrite map_length; exact H).
  cbn [List.length rows cells map]. cbn [cut app]. rewrite firstn_cons, skipn_cons.
  rewrite firstn_app, skipn_app, L, Nat.sub_diag, firstn_O, app_nil_r. cbn [skipn].
  rewrite (firstn_all2 (map (Z.add t) k)) by lia. rewrite (skipn_all2 (map (Z.add t) k)) by lia.
  cbn [app map]. rewrite IH by exact F. reflexivity.
Qed.

Lemma cells_map : forall p l e t,
  map (fun x => {| el_dim := p_dim p; el_ent := p_entity p; el_type := p_type p; el_tag := el_tag x; el_nodes := el_nodes x |})
    (cells {| p_entity := 0; p_type := 0; p_points := []; p_cells := [] |} e t l) = cells p e t l.
Proof. intro p. induction l as [|k l IH]; intros e t; [reflexivity|]. cbn [cells map]. rewrite IH. reflexivity. Qed.

Lemma gmsh_nodes_nonneg : forall ty n, gmsh_nodes ty = Some n -> 0 <= n.
Proof. intros ty n H. pose proof (gmsh_nodes_spec ty n H). lia. Qed.

Lemma mesh_cells : forall ps e t, Forall proper ps -> flat_map block_elements (element_blocks e t ps) = all_cells e t ps.
Proof.
  induction ps as [|p ps IH]; intros e t F; [reflexivity|]. inversion F as [|? ? P F']; subst.
  cbn [element_blocks flat_map all_cells]. rewrite IH by exact F'. f_equal.
  destruct (pr_type p P) as (n & G & L). unfold block_elements. cbn [eb_type eb_num eb_data]. rewrite G.
  pose proof (gmsh_nodes_nonneg _ _ G) as N. unfold zlen. rewrite Nat2Z.id.
  replace (Z.to_nat (n + 1)) with (S (Z.to_nat n)) by lia.
  rewrite cut_rows. apply cells_map.
  apply Forall_forall. intros k K. rewrite Forall_forall in L. specialize (L k K). unfold zlen in L. lia.
Qed.

Lemma cells_length : forall p l e t, List.length (cells p e t l) = List.length l.
Proof. intro p. induction l as [|k l IH]; intros e t; [reflexivity|]. cbn [cells List.length]. rewrite IH. reflexivity. Qed.

Lemma all_cells_length : forall ps e t, zlen (all_cells e t ps) = total p_cells ps.
Proof.
  induction ps as [|p ps IH]; intros e t; [reflexivity|]. cbn [all_cells]. rewrite zlen_app, IH, total_cons.
  f_equal. unfold zlen. rewrite cells_length. reflexivity.
Qed.

Lemma cells_tags : forall p l e t, map el_tag (cells p e t l) = from e (List.length l).
Proof. intro p. induction l as [|k l IH]; intros e t; [reflexivity|]. cbn [cells map List.length from]. rewrite IH. reflexivity. Qed.

Lemma all_tags : forall ps e t, map el_tag (all_cells e t ps) = from e (List.length (flat_map p_cells ps)).
Proof.
  induction ps as [|p ps IH]; intros e t; [reflexivity|]. cbn [all_cells flat_map]. rewrite map_app, IH, app_length, from_app, cells_tags.
  reflexivity.
Qed.

Lemma in_cells : forall p l e t x, In x (cells p e t l) -> exists e' k, In k l /\ x = cell p e' t k.
Proof.
  intro p. induction l as [|k l IH]; intros e t x H; [destruct H|]. cbn [cells] in H. destruct H as [<-|H].
  - exists e, k. split; [left|]; reflexivity.
  - destruct (IH _ _ _ H) as (e' & k' & K & ->). exists e', k'. split; [right; exact K|reflexivity].
Qed.

Lemma cells_in : forall p l e t k, In k l -> exists e', In (cell p e' t k) (cells p e t l).
Proof.
  intro p. induction l as [|k' l IH]; intros e t k H; [destruct H|]. destruct H as [->|H].
  - exists e. left. reflexivity.
  - destruct (IH (e + 1) t k H) as (e' & E). exists e'. right. exact E.
Qed.

Lemma cells_nodes : forall p e t x i, proper p -> In x (cells p e t (p_cells p)) -> In i (el_nodes x) ->
  t <= i < t + zlen (p_points p).
Proof.
  intros p e t x i P H I. destruct (in_cells _ _ _ _ _ H) as (e' & k & K & ->). cbn [cell el_nodes] in I.
  apply in_map_iff in I as (j & <- & J). pose proof (pr_inside p P) as F. rewrite Forall_forall in F.
  specialize (F k K). rewrite Forall_forall in F. specialize (F j J). lia.
Qed.

Lemma all_nodes : forall ps e t x i, Forall proper ps -> In x (all_cells e t ps) -> In i (el_nodes x) ->
  t <= i < t + total p_points ps.
Proof.
  induction ps as [|p ps IH]; intros e t x i F H I; [destruct H|]. inversion F as [|? ? P F']; subst.
  rewrite total_cons. pose proof (total_nonneg _ p_points ps). cbn [all_cells] in H. apply in_app_iff in H as [H|H].
  - pose proof (cells_nodes p e t x i P H I). lia.
  - pose proof (IH _ _ x i F' H I). pose proof (zlen_nonneg _ (p_points p)). lia.
Qed.

Lemma last_use : forall (i : Z) es, (exists x, In x es /\ In i (el_nodes x)) ->
  exists l x r, es = l ++ x :: r /\ In i (el_nodes x) /\ forall y, In y r -> ~ In i (el_nodes y).
Proof.
  intros i. induction es as [|y es IH]; intros (x & X & I); [destruct X|].
  destruct (Exists_dec (fun z => In i (el_nodes z)) es) as [E|E].
  { intro z. destruct (in_dec Z.eq_dec i (el_nodes z)); [left|right]; assumption. }
  - apply Exists_exists in E. destruct (IH E) as (l & z & r & -> & Z1 & Z2). exists (y :: l), z, r. auto.
  - assert (N : forall z, In z es -> ~ In i (el_nodes z)).
    { intros z Hz Hi. apply E. apply Exists_exists. exists z. auto. }
    destruct X as [->|X]; [|destruct (N x X I)]. exists [], x, es. auto.
Qed.

Lemma class : forall ps e t b i, Forall proper ps -> In b (node_blocks t ps) -> In i (nb_tags b) ->
  classified (all_cells e t ps) i (node_key b).
Proof.
  induction ps as [|p ps IH]; intros e t b i F B I; [destruct B|]. inversion F as [|? ? P F']; subst.
  cbn [node_blocks] in B. cbn [all_cells]. destruct B as [<-|B].
  - left. cbn [nb_tags] in I. rewrite in_from in I. fold (zlen (p_points p)) in I.
    destruct (pr_used p P (i - t)) as (k & K & J); [lia|].
    destruct (last_use i (cells p e t (p_cells p))) as (l & x & r & E & X & N).
    { destruct (cells_in p _ e t k K) as (e' & C). exists (cell p e' t k). split; [exact C|].
      cbn [cell el_nodes]. apply in_map_iff. exists (i - t). split; [lia|exact J]. }
    exists l, x, (r ++ all_cells (e + zlen (p_cells p)) (t + zlen (p_points p)) ps).
    rewrite E, <- app_assoc. split; [reflexivity|]. split; [exact X|]. split.
    + intros y Y. apply in_app_iff in Y as [Y|Y]; [exact (N y Y)|]. intro H.
      pose proof (all_nodes _ _ _ y i F' Y H). lia.
    + destruct (in_cells p (p_cells p) e t x) as (e' & k' & _ & ->); [rewrite E; apply in_elt|]. reflexivity.
  - destruct (IH (e + zlen (p_cells p)) (t + zlen (p_points p)) b i F' B I) as [(l & x & r & -> & X & N & D)|[N D]].
    + left. exists (cells p e t (p_cells p) ++ l), x, r. rewrite app_assoc. auto.
    + right. split; [|exact D]. intros x X H. apply in_app_iff in X as [X|X]; [|exact (N x X H)].
      pose proof (cells_nodes p e t x i P X H).
      assert (In i (flat_map nb_tags (node_blocks (t + zlen (p_points p)) ps))) as J by (apply in_flat_map; eauto).
      rewrite node_tags_from, in_from in J. lia.
Qed.

(** ** Sizes *)

Lemma rows_length : forall l e t e' t', zlen (rows e t l) = zlen (rows e' t' l).
Proof.
  induction l as [|k l IH]; intros e t e' t'; [reflexivity|]. cbn [rows]. rewrite !zlen_app, !zlen_cons, !zlen_map.
  rewrite (IH _ t (e' + 1) t'). reflexivity.
Qed.

Lemma rows_exact : forall l n e t, Forall (fun k => zlen k = n) l -> zlen (rows e t l) = zlen l * (n + 1).
Proof.
  induction l as [|k l IH]; intros n e t F; [reflexivity|]. inversion F as [|? ? K F']; subst.
  cbn [rows]. rewrite zlen_app, !zlen_cons, zlen_map, (IH (zlen k)) by exact F'. lia.
Qed.

Lemma cells_le : forall l e t, zlen l <= zlen (rows e t l).
Proof.
  induction l as [|k l IH]; intros e t; [reflexivity|]. cbn [rows]. rewrite zlen_app, !zlen_cons.
  specialize (IH (e + 1) t). pose proof (zlen_nonneg _ (map (Z.add t) k)). lia.
Qed.

Lemma total_cells_le : forall ps, total p_cells ps <= total numbers ps.
Proof.
  induction ps as [|p ps IH]; [reflexivity|]. rewrite !total_cons. pose proof (cells_le (p_cells p) 0 0). unfold numbers at 1. lia.
Qed.

Lemma part_le : forall A (f : part -> list A) ps p, In p ps -> zlen (f p) <= total f ps.
Proof.
  intros A f. induction ps as [|q ps IH]; intros p H; [destruct H|]. rewrite total_cons.
  pose proof (total_nonneg _ f ps). pose proof (zlen_nonneg _ (f q)). destruct H as [->|H]; [lia|]. specialize (IH p H). lia.
Qed.

Lemma in_rows : forall l e t x, In x (rows e t l) -> (e <= x < e + zlen l) \/ exists k i, In k l /\ In i k /\ x = t + i.
Proof.
  induction l as [|k l IH]; intros e t x H; [destruct H|]. cbn [rows] in H. rewrite zlen_cons. pose proof (zlen_nonneg _ l).
  cbn [app In] in H. destruct H as [<-|H]; [left; lia|]. apply in_app_iff in H as [H|H].
  - right. apply in_map_iff in H as (i & <- & I). exists k, i. split; [left; reflexivity|]. auto.
  - destruct (IH _ _ _ H) as [R|(k' & i & K & I & ->)]; [left; lia|]. right. exists k', i. split; [right; exact K|]. auto.
Qed.

(** What is known of every block. *)
Lemma in_node_blocks : forall ps t b, In b (node_blocks t ps) -> exists p t', In p ps /\ t <= t' /\
  t' + zlen (p_points p) <= t + total p_points ps /\
  b = {| nb_dim := p_dim p; nb_tag := p_entity p; nb_parametric := 0; nb_num := zlen (p_points p);
         nb_tags := from t' (List.length (p_points p)); nb_data := flat_map xyz (p_points p) |}.
Proof.
  induction ps as [|p ps IH]; intros t b H; [destruct H|]. rewrite total_cons. pose proof (total_nonneg _ p_points ps).
  pose proof (zlen_nonneg _ (p_points p)). cbn [node_blocks] in H. destruct H as [<-|H].
  - exists p, t. split; [left; reflexivity|]. split; [lia|]. split; [lia|reflexivity].
  - destruct (IH _ _ H) as (q & t' & Q & L1 & L2 & ->). exists q, t'. split; [right; exact Q|]. split; [lia|]. split; [lia|reflexivity].
Qed.

Lemma in_element_blocks : forall ps e t b, In b (element_blocks e t ps) -> exists p e' t', In p ps /\ e <= e' /\ t <= t' /\
  t' + zlen (p_points p) <= t + total p_points ps /\ e' + zlen (p_cells p) <= e + total p_cells ps /\
  b = {| eb_dim := p_dim p; eb_tag := p_entity p; eb_type := p_type p; eb_num := zlen (p_cells p);
         eb_data := rows e' t' (p_cells p) |}.
Proof.
  induction ps as [|p ps IH]; intros e t b H; [destruct H|]. rewrite !total_cons. pose proof (total_nonneg _ p_points ps).
  pose proof (total_nonneg _ p_cells ps).
  pose proof (zlen_nonneg _ (p_points p)). pose proof (zlen_nonneg _ (p_cells p)). cbn [element_blocks] in H. destruct H as [<-|H].
  - exists p, e, t. split; [left; reflexivity|]. repeat (split; [lia|]). reflexivity.
  - destruct (IH _ _ _ H) as (q & e' & t' & Q & L1 & L2 & L3 & L4 & ->). exists q, e', t'. split; [right; exact Q|].
    repeat (split; [lia|]). reflexivity.
Qed.

Lemma node_blocks_length : forall ps t, zlen (node_blocks t ps) = zlen ps.
Proof. induction ps as [|p ps IH]; intro t; [reflexivity|]. cbn [node_blocks]. rewrite !zlen_cons, IH. reflexivity. Qed.
Lemma element_blocks_length : forall ps e t, zlen (element_blocks e t ps) = zlen ps.
Proof. induction ps as [|p ps IH]; intros e t; [reflexivity|]. cbn [element_blocks]. rewrite !zlen_cons, IH. reflexivity. Qed.

Lemma type_dim_range : forall t, 0 <= type_dim t <= 3.
Proof.
  intro t. unfold type_dim. destruct (gmsh_dim t) as [d|] eqn:E; [|lia]. revert E. unfold gmsh_dim, gmsh_family.
  destruct t as [|p|p]; try discriminate.
  do 5 (try discriminate; try match goal with q : positive |- _ => destruct q end);
    try discriminate; intro E; injection E as <-; split; discriminate.
Qed.

Lemma p_dim_int : forall p, int_ok (p_dim p).
Proof. intro p. pose proof (type_dim_range (p_type p)) as H. unfold p_dim. revert H. generalize (type_dim (p_type p)). intros z H. unfold int_ok, INT_MIN, INT_MAX. lia. Qed.

Section Ok.
Variables (c : cfg) (a : bool) (ps : list part) (o : rest).
Hypothesis P : propers ps.
Hypothesis R : roomy c ps.
Hypothesis O : rest_ok c a o.
Hypothesis D : Forall (dbl_ok a) (coordinates ps).

Lemma fits_roomy : forall sz n, 0 < sz -> n * sz <= 128 * (total p_points ps + total numbers ps + 1) -> fits c sz n.
Proof.
  intros sz n Z1 H. destruct R as [R1 R2 R3]. split; [|lia]. apply Z.div_le_lower_bound; [exact Z1|].
  revert R1 R2 H. generalize (total p_points ps) (total numbers ps). intros N M R1 R2 H. unfold INT_MAX, PTRDIFF_MAX in *. lia.
Qed.

Lemma parts_points : zlen ps <= total p_points ps.
Proof.
  destruct P as [F _]. clear R D P. induction ps as [|p l IH]; [reflexivity|]. inversion F as [|? ? Q F']; subst.
  rewrite total_cons, zlen_cons. specialize (IH F'). pose proof (pr_points p Q). destruct (p_points p); [congruence|].
  rewrite zlen_cons. pose proof (zlen_nonneg _ l0). lia.
Qed.

Lemma parts_cells : zlen ps <= total p_cells ps.
Proof.
  destruct P as [F _]. clear R D P. induction ps as [|p l IH]; [reflexivity|]. inversion F as [|? ? Q F']; subst.
  rewrite total_cons, zlen_cons. specialize (IH F'). pose proof (pr_cells p Q). destruct (p_cells p); [congruence|].
  rewrite zlen_cons. pose proof (zlen_nonneg _ l1). lia.
Qed.

Lemma proper_in : forall p, In p ps -> proper p.
Proof. destruct P as [F _]. rewrite Forall_forall in F. exact F. Qed.

Lemma small_size : forall x, 0 <= x <= INT_MAX + 1 -> size_ok x.
Proof. intros x H. unfold size_ok, two64, INT_MAX in *. lia. Qed.

Lemma data_part : forall p, In p ps -> Forall (dbl_ok a) (flat_map xyz (p_points p)).
Proof.
  intros p H. apply Forall_forall. intros x X. rewrite Forall_forall in D. apply D. unfold coordinates.
  apply in_flat_map. exists p. auto.
Qed.

(** All numbers of the element blocks. *)
Lemma numbers_range : forall b, In b (element_blocks 1 1 ps) -> Forall (fun x => 0 <= x <= INT_MAX) (eb_data b).
Proof.
  intros b H. destruct (in_element_blocks _ _ _ _ H) as (p & e & t & Q & L1 & L2 & L3 & L4 & ->). cbn [eb_data].
  destruct R as [R1 R2 _]. pose proof (total_cells_le ps). apply Forall_forall. intros x X.
  apply in_rows in X as [X|(k & i & K & I & ->)]; [lia|].
  pose proof (pr_inside p (proper_in p Q)) as F. rewrite Forall_forall in F. specialize (F k K). rewrite Forall_forall in F.
  specialize (F i I). lia.
Qed.

Lemma element_block_size : forall b, In b (element_blocks 1 1 ps) ->
  zlen (eb_data b) <= total numbers ps /\ 0 <= eb_num b <= total p_cells ps /\ 0 < eb_num b /\ int_ok (eb_tag b) /\ int_ok (eb_dim b) /\
  gmsh_dim (eb_type b) = Some (eb_dim b) /\
  exists n, gmsh_nodes (eb_type b) = Some n /\ zlen (eb_data b) = eb_num b * (n + 1) /\ n <= total numbers ps.
Proof.
  intros b H. destruct (in_element_blocks _ _ _ _ H) as (p & e & t & Q & _ & _ & _ & _ & ->).
  cbn [eb_data eb_num eb_tag eb_dim eb_type]. pose proof (proper_in p Q) as PP.
  pose proof (part_le _ numbers ps p Q) as B. pose proof (part_le _ p_cells ps p Q) as B'. unfold numbers at 1 in B.
  rewrite (rows_length _ 0 0 e t) in B.
  assert (N : 0 < zlen (p_cells p)).
  { pose proof (pr_cells p PP). destruct (p_cells p); [congruence|]. rewrite zlen_cons. pose proof (zlen_nonneg _ l0). lia. }
  split; [exact B|]. split; [lia|]. split; [exact N|]. split; [apply PP|]. split; [apply p_dim_int|]. split.
  { unfold p_dim, type_dim. pose proof (pr_dim p PP). destruct (gmsh_dim (p_type p)); [reflexivity|congruence]. }
  destruct (pr_type p PP) as (n & G & F). exists n. split; [exact G|]. rewrite (rows_exact _ n) in * by exact F.
  split; [reflexivity|]. pose proof (gmsh_nodes_nonneg _ _ G). nia.
Qed.

Lemma node_block_size : forall b, In b (node_blocks 1 ps) ->
  nb_parametric b = 0 /\ int_ok (nb_tag b) /\ int_ok (nb_dim b) /\ nb_num b = zlen (nb_tags b) /\
  zlen (nb_data b) = 3 * nb_num b /\ 0 < nb_num b <= total p_points ps /\ Forall (dbl_ok a) (nb_data b) /\
  Forall (fun t => 1 <= t <= total p_points ps) (nb_tags b).
Proof.
  intros b H. destruct (in_node_blocks _ _ _ H) as (p & t & Q & L1 & L2 & ->).
  cbn [nb_parametric nb_tag nb_dim nb_num nb_tags nb_data]. pose proof (proper_in p Q) as PP.
  split; [reflexivity|]. split; [apply PP|]. split; [apply p_dim_int|].
  split; [unfold zlen; rewrite from_length; reflexivity|]. split; [apply flat_xyz|]. split.
  { split; [|apply (part_le _ p_points ps p Q)]. pose proof (pr_points p PP). destruct (p_points p); [congruence|].
    rewrite zlen_cons. pose proof (zlen_nonneg _ l). lia. }
  split; [exact (data_part p Q)|]. apply Forall_forall. intros x X. apply in_from in X. unfold zlen in *. lia.
Qed.

Lemma built_nodes_eq : n_num_nodes (built_nodes ps) = total p_points ps /\ n_num_blocks (built_nodes ps) = zlen ps /\
  n_blocks (built_nodes ps) = node_blocks 1 ps.
Proof. clear P R D. destruct ps; repeat split; reflexivity. Qed.
Lemma built_elements_eq : e_num_elements (built_elements ps) = total p_cells ps /\ e_num_blocks (built_elements ps) = zlen ps /\
  e_blocks (built_elements ps) = element_blocks 1 1 ps.
Proof. clear P R D. destruct ps; repeat split; reflexivity. Qed.
Lemma built_range : 0 <= n_min (built_nodes ps) <= 1 /\ n_max (built_nodes ps) = total p_points ps /\
  0 <= e_min (built_elements ps) <= 1 /\ e_max (built_elements ps) = total p_cells ps.
Proof. clear P R D. destruct ps; repeat split; try reflexivity; try discriminate. Qed.
Lemma built_min : ps <> [] -> n_min (built_nodes ps) = 1 /\ e_min (built_elements ps) = 1.
Proof. clear P R D. destruct ps; [congruence|]. split; reflexivity. Qed.

Lemma built_splines : nanospline c = true -> splines_ok c a (to41 a (built ps o)) /\ splines_ok c a (to22 a (built ps o)).
Proof.
  intro E. destruct O as [_ _ _ _ _ O1 O2]. specialize (O1 E). specialize (O2 E).
  assert (W : word (str "1.0")) by (split; [discriminate|repeat constructor]).
  split; split; [exact W|exact O1|exact O2|exact W|exact O1|exact O2].
Qed.

Lemma points_nonneg : 0 <= total p_points ps.
Proof. apply total_nonneg. Qed.
Lemma numbers_nonneg : 0 <= total numbers ps.
Proof. apply total_nonneg. Qed.

Lemma built_41 : consistent41 c a (to41 a (built ps o)).
Proof.
  destruct built_nodes_eq as (N1 & N2 & N3). destruct built_elements_eq as (E1 & E2 & E3). destruct built_range as (G1 & G2 & G3 & G4).
  pose proof points_nonneg as K1. pose proof numbers_nonneg as K2. pose proof (total_cells_le ps) as K3.
  pose proof (total_nonneg _ p_cells ps) as K4. pose proof parts_points as K5. pose proof parts_cells as K6.
  pose proof (zlen_nonneg _ ps) as K7. destruct R as [R1 R2 _].
  assert (I1 : INT_MAX = 2147483647) by reflexivity.
  split; [reflexivity|reflexivity|reflexivity| | |].
  - split; cbn [to41 as_version as_type set_format built physical_groups nodes elements node_data element_data element_node_data]; try apply O.
    + rewrite N1. apply small_size. lia.
    + intros _. split.
      * rewrite N2, N3, node_blocks_length. reflexivity.
      * apply small_size. lia.
      * rewrite G2. apply small_size. lia.
      * rewrite N3, node_blocks_length. apply fits_roomy; [reflexivity|]. unfold sz_NodeBlock. lia.
      * rewrite N3. apply Forall_forall. intros b B. destruct (node_block_size b B) as (B1 & B2 & B3 & B4 & B5 & B6 & B7 & B8).
        assert (W : node_width b = 3) by (unfold node_width; rewrite B1; reflexivity).
        split; try assumption.
        -- rewrite B1. split; discriminate.
        -- rewrite B1. split; discriminate.
        -- eapply Forall_impl; [|exact B8]. intros t T. cbv beta in T. apply small_size. lia.
        -- rewrite W. split; discriminate.
        -- rewrite W. lia.
        -- rewrite <- B4. apply fits_roomy; [reflexivity|]. unfold sz_size. lia.
        -- rewrite B5. apply fits_roomy; [reflexivity|]. unfold sz_double. lia.
    + rewrite E1. apply small_size. lia.
    + intros _. split.
      * rewrite E2, E3, element_blocks_length. reflexivity.
      * apply small_size. lia.
      * rewrite G4. apply small_size. lia.
      * rewrite E3, element_blocks_length. apply fits_roomy; [reflexivity|]. unfold sz_ElementBlock. lia.
      * rewrite E3. apply Forall_forall. intros b B.
        destruct (element_block_size b B) as (B1 & B2 & B3 & B4 & B5 & B6 & n & B7 & B8 & B9).
        split; try assumption.
        -- apply small_size. lia.
        -- exists n. auto.
        -- eapply Forall_impl; [|exact (numbers_range b B)]. intros x X. cbv beta in X. apply small_size. lia.
        -- apply fits_roomy; [reflexivity|]. unfold sz_size. lia.
  - apply O.
  - intro E. apply (built_splines E).
Qed.

Lemma built_mesh_tags : map n_tag (mesh_nodes (built_nodes ps)) = from 1 (List.length (flat_map p_points ps)).
Proof. rewrite mesh_tags. destruct built_nodes_eq as (_ & _ & ->). apply node_tags_from. Qed.

Lemma built_mesh_cells : mesh_elements (built_elements ps) = all_cells 1 1 ps.
Proof. unfold mesh_elements. destruct built_elements_eq as (_ & _ & ->). apply mesh_cells. apply P. Qed.

Lemma tag_22_small : forall t, 0 <= t <= INT_MAX -> tag_22 a t = t.
Proof.
  intros t H. unfold tag_22. destruct a; [reflexivity|]. unfold tag32. unfold INT_MAX in H.
  rewrite Z.mod_small by (change (2 ^ 32) with 4294967296; lia). change (2 ^ 31) with 2147483648.
  destruct (Z.ltb_spec t 2147483648); [reflexivity|lia].
Qed.

Lemma node_tag_in : forall n, In n (mesh_nodes (built_nodes ps)) -> 1 <= n_tag n <= total p_points ps.
Proof.
  intros n H. apply (in_map n_tag) in H. rewrite built_mesh_tags, in_from in H. unfold total, zlen. lia.
Qed.

Lemma node_of_tag : forall t, 1 <= t <= total p_points ps -> exists n, In n (mesh_nodes (built_nodes ps)) /\ n_tag n = t.
Proof.
  intros t H. assert (I : In t (map n_tag (mesh_nodes (built_nodes ps)))).
  { rewrite built_mesh_tags, in_from. unfold total, zlen in H. lia. }
  apply in_map_iff in I as (n & <- & N). eauto.
Qed.

Lemma element_blocks_positive : Forall (fun b => 0 < eb_num b) (element_blocks 1 1 ps).
Proof. apply Forall_forall. intros b B. apply (element_block_size b B). Qed.

Lemma built_22 : consistent22 c a (to22 a (built ps o)).
Proof.
  destruct built_nodes_eq as (N1 & N2 & N3). destruct built_elements_eq as (E1 & E2 & E3). destruct built_range as (G1 & G2 & G3 & G4).
  pose proof points_nonneg as K1. pose proof numbers_nonneg as K2. pose proof (total_cells_le ps) as K3.
  pose proof (total_nonneg _ p_cells ps) as K4. pose proof parts_points as K5. pose proof parts_cells as K6.
  pose proof (zlen_nonneg _ ps) as K7. pose proof R as [R1 R2 _].
  assert (I1 : INT_MAX = 2147483647) by reflexivity.
  split; cbn [to22 as_version as_type set_format built mesh_format version file_type data_size physical_groups nodes elements node_data element_data element_node_data];
    try apply O; try reflexivity.
  - split; discriminate.
  - rewrite N1. unfold total, zlen at 1. unfold zlen. rewrite <- (map_length n_tag (mesh_nodes _)), built_mesh_tags, from_length. reflexivity.
  - intros _. split.
    + rewrite N2, N3, node_blocks_length. reflexivity.
    + rewrite N3. apply Forall_forall. intros b B. destruct (node_block_size b B) as (B1 & B2 & B3 & B4 & B5 & B6 & B7 & B8).
      assert (W : node_width b = 3) by (unfold node_width; rewrite B1; reflexivity).
      split; try assumption.
      * eapply Forall_impl; [|exact B8]. intros t T. cbv beta in T. apply small_size. lia.
      * rewrite W. split; [reflexivity|discriminate].
      * rewrite W. lia.
      * rewrite B5. apply fits_roomy; [reflexivity|]. unfold sz_double. lia.
    + apply fits_roomy; [reflexivity|]. unfold sz_NodeBlock. lia.
    + rewrite N1. apply fits_roomy; [reflexivity|]. unfold sz_double. lia.
  - rewrite E1, built_mesh_cells, all_cells_length. reflexivity.
  - intros _. split.
    + rewrite E2, E3, element_blocks_length. reflexivity.
    + rewrite E3. apply Forall_forall. intros b B.
      destruct (element_block_size b B) as (B1 & B2 & B3 & B4 & B5 & B6 & n & B7 & B8 & B9). pose proof (numbers_range b B) as B10.
      split; try assumption.
      * apply small_size. lia.
      * intros _. lia.
      * exists n. split; [exact B7|]. split; [exact B8|]. apply fits_roomy; [reflexivity|]. unfold sz_int. lia.
      * eapply Forall_impl; [|exact B10]. intros x X. cbv beta in X. apply small_size. lia.
      * intros _. eapply Forall_impl; [|exact B10]. intros x X. cbv beta in X. lia.
      * apply fits_roomy; [reflexivity|]. unfold sz_size. lia.
    + rewrite E1. apply fits_roomy; [reflexivity|]. unfold sz_ElementBlock. lia.
    + intros _ bs b H. rewrite E3 in H. pose proof element_blocks_positive as F. rewrite H in F.
      apply Forall_app in F as [_ F]. exact (Forall_inv F).
  - intros e t He Ht. rewrite built_mesh_cells in He.
    pose proof (all_nodes ps 1 1 e t (proj1 P) He Ht) as B.
    destruct (node_of_tag t) as (n & Hn & <-); [lia|]. exists n, n. split; [exact Hn|]. split; [exact Hn|]. lia.
  - intros n1 n2 H1 H2. apply node_tag_in in H1. apply node_tag_in in H2. rewrite !tag_22_small by lia.
    apply fits_roomy; [reflexivity|]. unfold sz_size. lia.
  - split; (apply fits_roomy; [reflexivity|]); unfold sz_size, sz_int; lia.
  - intro E. apply (built_splines E).
Qed.

Lemma differ_nodes : forall l t, neighbours_differ (fun p => (p_dim p, p_entity p)) l -> neighbours_differ node_key (node_blocks t l).
Proof.
  induction l as [|p l IH]; intros t H; [exact I|]. destruct l as [|q l]; [exact I|]. destruct H as [H1 H2].
  split; [exact H1|]. exact (IH _ H2).
Qed.

Lemma differ_elements : forall l e t, neighbours_differ (fun p => (p_dim p, p_entity p)) l ->
  neighbours_differ element_key (element_blocks e t l).
Proof.
  induction l as [|p l IH]; intros e t H; [exact I|]. destruct l as [|q l]; [exact I|]. destruct H as [H1 H2].
  split; [|exact (IH _ _ H2)]. unfold element_key. cbn [eb_dim eb_tag eb_type]. congruence.
Qed.

Lemma short_small : forall t, 0 <= t <= INT_MAX -> short a t.
Proof. intros t H _. left. unfold INT_MAX in H. change (2 ^ 31) with 2147483648. lia. Qed.

Lemma built_regular : regular a (built ps o).
Proof.
  destruct built_nodes_eq as (N1 & N2 & N3). destruct built_elements_eq as (E1 & E2 & E3). destruct built_range as (G1 & G2 & G3 & G4).
  pose proof points_nonneg as K1. pose proof (total_cells_le ps) as K3. pose proof (total_nonneg _ p_cells ps) as K4.
  pose proof R as [R1 R2 _].
  split; cbn [built nodes elements]; rewrite ?N3, ?E3.
  - apply Forall_forall. intros b B. destruct (node_block_size b B) as (B1 & B2 & B3 & B4 & B5 & B6 & B7 & B8).
    split; [exact B1|]. split; [intro E; rewrite E, zlen_nil in B4; lia|].
    eapply Forall_impl; [|exact B8]. intros t T. cbv beta in T. apply short_small. lia.
  - apply differ_nodes, P.
  - intros b t B T. rewrite built_mesh_cells. exact (class ps 1 1 b t (proj1 P) B T).
  - rewrite N1. intro H. rewrite built_mesh_tags. destruct built_min as [M _]; [intro E; rewrite E in H; apply H; reflexivity|].
    rewrite M, G2, !in_from. unfold total, zlen in *. lia.
  - apply Forall_forall. intros b B. split; [apply (element_block_size b B)|].
    eapply Forall_impl; [|exact (numbers_range b B)]. intros x X. exact (short_small x X).
  - apply differ_elements, P.
  - rewrite E1. intro H. rewrite built_mesh_cells, all_tags. destruct built_min as [_ M]; [intro E; rewrite E in H; apply H; reflexivity|].
    rewrite M, G4, !in_from. unfold total, zlen in *. lia.
Qed.

Lemma rows_flat : forall l e t, rows e t l = flat_map (fun r => fst r :: snd r) (combine (from e (List.length l)) (map (map (Z.add t)) l)).
Proof.
  induction l as [|k l IH]; intros e t; [reflexivity|]. cbn [rows List.length from map combine flat_map fst snd]. rewrite IH. reflexivity.
Qed.

Lemma built_valid : validate_spec (built ps o) = Ok tt.
Proof.
  destruct built_nodes_eq as (N1 & N2 & N3). destruct built_elements_eq as (E1 & E2 & E3). destruct built_range as (G1 & G2 & G3 & G4).
  pose proof points_nonneg as K1. pose proof (total_cells_le ps) as K3. pose proof (total_nonneg _ p_cells ps) as K4.
  pose proof parts_points as K5. pose proof parts_cells as K6.
  apply validate_ok.
  - unfold typed. cbn [built elements]. rewrite E3. eapply Forall_impl; [|exact element_blocks_positive]. intros b B. cbv beta in B. lia.
  - split; [|rewrite ?N3, ?E3; split].
    + split; cbn [built nodes elements].
      * rewrite N2, N3, node_blocks_length. reflexivity.
      * rewrite E2, E3, element_blocks_length. reflexivity.
      * rewrite G2. destruct ps as [|p l]; [discriminate|]. cbn [built_nodes n_min]. rewrite zlen_cons in K5.
        pose proof (zlen_nonneg _ l). lia.
      * rewrite G4. destruct ps as [|p l]; [discriminate|]. cbn [built_elements e_min]. rewrite zlen_cons in K6.
        pose proof (zlen_nonneg _ l). lia.
    + cbn [built nodes]. rewrite N3. apply Forall_forall. intros b B.
      destruct (node_block_size b B) as (B1 & B2 & B3 & B4 & B5 & B6 & B7 & B8). split.
      * split; [exact B4| |].
        -- eapply Forall_impl; [|exact B8]. intros t T. cbv beta in T. unfold node_range. cbn [built nodes]. lia.
        -- rewrite B1, B5, B4. change (if 0 <? 0 then 3 + nb_dim b else 3) with 3. rewrite B4 in B6.
           destruct R as [R1 _ _]. unfold INT_MAX in R1. rewrite Z.mod_small; [lia|]. change (2 ^ 64) with 18446744073709551616. lia.
      * intro H. rewrite B1 in H. lia.
    + cbn [built elements]. rewrite E3. apply Forall_forall. intros b B.
      destruct (element_block_size b B) as (B1 & B2 & B3 & B4 & B5 & B6 & n & B7 & B8 & B9).
      pose proof (gmsh_nodes_nonneg _ _ B7) as NN. split; [|unfold countable; nia].
      assert (W : zlen (eb_data b) / eb_num b = n + 1) by (rewrite B8, Z.mul_comm; apply Z.div_mul; lia).
      unfold valid_element_block. rewrite W.
      destruct (in_element_blocks _ _ _ _ B) as (p & e & t & Q & L1 & L2 & L3 & L4 & ->). cbn [eb_data eb_type] in *.
      eexists. split; [apply rows_flat|]. apply Forall_forall. intros [e' k'] X.
      pose proof (in_combine_l _ _ _ _ X) as X1. pose proof (in_combine_r _ _ _ _ X) as X2. cbn [fst snd].
      rewrite in_from in X1. fold (zlen (p_cells p)) in X1. apply in_map_iff in X2 as (k & <- & K).
      destruct (pr_type p (proper_in p Q)) as (n' & G & F). rewrite Forall_forall in F. rewrite zlen_map, (F k K).
      split; [congruence|]. split.
      * unfold element_range. cbn [built elements]. lia.
      * apply Forall_forall. intros i I. apply in_map_iff in I as (j & <- & J).
        pose proof (pr_inside p (proper_in p Q)) as F'. rewrite Forall_forall in F'. specialize (F' k K).
        rewrite Forall_forall in F'. specialize (F' j J). unfold node_range. cbn [built nodes]. lia.
Qed.
End Ok.
