(** Files in any layout, loaded and saved in another format. *)

From Verif Require Import Model.Save Spec.Consistent22 Spec.Any22 Spec.Rewrite
  Proofs.BytesP Proofs.RtBase Proofs.RtStep Proofs.ShowP Proofs.RoundP Proofs.TextP Proofs.Rt41B Proofs.Rt41 Proofs.Text41P Proofs.Any22P Proofs.ConvertP Proofs.PostP Proofs.ValidRt.

Ltac Zify.zify_post_hook ::= idtac.

(** ** 4.1 files *)

Lemma last_of_ok : forall A (P : A -> Prop) (pick : sec -> option A) ps d,
  (forall p x, In p ps -> pick p = Some x -> P x) -> P d -> P (last_of pick ps d).
Proof.
  intros A P pick ps. induction ps as [|p ps IH]; intros d H D; [exact D|]. cbn [last_of]. apply IH.
  - intros q x Hq. apply H. right. exact Hq.
  - destruct (pick p) eqn:E; [eapply H; [left; reflexivity|exact E]|exact D].
Qed.
Lemma all_of_ok : forall A (P : A -> Prop) (pick : sec -> option A) ps,
  (forall p x, In p ps -> pick p = Some x -> P x) -> Forall P (all_of pick ps).
Proof.
  intros A P pick ps H. unfold all_of. induction ps as [|p ps IH]; [constructor|]. cbn [flat_map]. apply Forall_app. split.
  - destruct (pick p) eqn:E; [|constructor]. constructor; [|constructor]. eapply H; [left; reflexivity|exact E].
  - apply IH. intros q x Hq. apply H. right. exact Hq.
Qed.

Lemma fits_0 : forall c sz, 0 <= mem c -> 0 < sz -> fits c sz 0.
Proof. intros c sz M H. split; [apply Z.div_pos; [discriminate|lia]|lia]. Qed.

(** The parts other than nodes, elements and entities. *)
Record others_ok (c : cfg) (a : bool) (s : MshSpec) : Prop := {
  oo_groups : groups_ok c (physical_groups s);
  oo_node_data : Forall (data_ok c a false) (node_data s);
  oo_element_data : Forall (data_ok c a false) (element_data s);
  oo_element_node_data : Forall (data_ok c a true) (element_node_data s);
  oo_splines : nanospline c = true -> splines_ok c a s }.

Lemma content_others : forall c a ascii ps, 0 <= mem c -> Forall (sec_ok c a) ps -> others_ok c a (content41 ascii ps).
Proof.
  intros c a ascii ps M F. rewrite Forall_forall in F.
  split; cbn [content41 physical_groups node_data element_data element_node_data].
  - apply last_of_ok; [|split; [constructor|discriminate|apply fits_0; [exact M|reflexivity]]].
    intros [] x Hp [=]. subst. exact (F _ Hp).
  - apply all_of_ok. intros [] x Hp [=]. subst. exact (proj1 (F _ Hp)).
  - apply all_of_ok. intros [] x Hp [=]. subst. exact (proj1 (F _ Hp)).
  - apply all_of_ok. intros [] x Hp [=]. subst. exact (proj1 (F _ Hp)).
  - intro N. split; cbn [content41 ns_version curves patches].
    + apply last_of_ok; [|split; [discriminate|repeat constructor]]. intros [] x Hp [=]. subst. exact (F _ Hp).
    + apply (last_of_ok _ (fun l => Forall (curve_ok c a) l /\ fits c sz_Curve (zlen l)));
        [|split; [constructor|apply fits_0; [exact M|reflexivity]]].
      intros [] x Hp [=]. subst. exact (proj2 (F _ Hp)).
    + apply (last_of_ok _ (fun l => Forall (patch_ok c a) l /\ fits c sz_Patch (zlen l)));
        [|split; [constructor|apply fits_0; [exact M|reflexivity]]].
      intros [] x Hp [=]. subst. exact (proj2 (F _ Hp)).
Qed.

Lemma content_consistent : forall c a ascii ps, 0 <= mem c -> Forall (sec_ok c a) ps ->
  consistent41 c a (as_type a (content41 ascii ps)).
Proof.
  intros c a ascii ps M F. destruct (content_others c a ascii ps M F) as [O1 O2 O3 O4 O5].
  rewrite Forall_forall in F.
  split; [reflexivity|reflexivity|reflexivity| | |intro N; destruct (O5 N) as [S1 S2 S3]; split; assumption].
  - split; cbn [as_type set_format physical_groups nodes elements node_data element_data element_node_data]; try assumption.
    + cbn [content41 nodes]. apply (last_of_ok _ (fun n => size_ok (n_num_nodes n))); [|split; [discriminate|reflexivity]].
      intros [] x Hp [=]. subst. exact (proj2 (F _ Hp)).
    + cbn [content41 nodes]. apply (last_of_ok _ (fun n => n_num_nodes n <> 0 -> nodes_ok c a n)); [|intro X; exfalso; apply X; reflexivity].
      intros [] x Hp [=] _. subst. exact (proj1 (F _ Hp)).
    + cbn [content41 elements]. apply (last_of_ok _ (fun n => size_ok (e_num_elements n))); [|split; [discriminate|reflexivity]].
      intros [] x Hp [=]. subst. exact (proj2 (F _ Hp)).
    + cbn [content41 elements]. apply (last_of_ok _ (fun n => e_num_elements n <> 0 -> elements_ok c n)); [|intro X; exfalso; apply X; reflexivity].
      intros [] x Hp [=] _. subst. exact (proj1 (F _ Hp)).
  - cbn [as_type set_format entities content41]. apply last_of_ok.
    + intros [] x Hp [=]. subst. exact (F _ Hp).
    + split; (split; [constructor|apply fits_0; [exact M|reflexivity]]).
Qed.

Lemma rewritten41 : forall c ascii a ps b, 0 <= mem c -> file41 ascii ps b -> Forall (sec_ok c ascii) ps -> Forall (sec_ok c a) ps ->
  exists s b', load_msh c b = Ok s /\ s = content41 ascii ps /\ save_msh c (as_type a s) = (b', Ok tt) /\
    load_msh c b' = Ok (via41 a ascii_round (nanospline c) (as_type a s)).
Proof.
  intros c ascii a ps b M H OK OK'. exists (content41 ascii ps).
  destruct (roundtrip41 c a _ (content_consistent c a ascii ps M OK')) as (b' & S & L). exists b'.
  split; [apply file41_loaded; assumption|]. split; [reflexivity|]. split; assumption.
Qed.

(** ** Nothing lost in binary *)

Lemma map_same : forall A (f : A -> A) l, Forall (fun x => f x = x) l -> map f l = l.
Proof. intros A f l H. induction H as [|x l H _ IH]; [reflexivity|]. cbn [map]. rewrite H, IH. reflexivity. Qed.
Lemma map_id_all : forall A (f : A -> A) l, (forall x, f x = x) -> map f l = l.
Proof. intros A f l H. apply map_same, Forall_forall. intros x _. apply H. Qed.

Lemma via_binary : forall r x, via false r x = x.
Proof. reflexivity. Qed.

Lemma data_binary : forall r d, real_tags (d_header d) = [] -> Forall (fun e => 0 <= de_tag e <= INT_MAX) (d_entries d) ->
  data_via false r d = d.
Proof.
  intros r [[st rt it] es] H T. cbn in H, T. subst. unfold data_via. cbn [d_header d_entries string_tags real_tags int_tags map]. f_equal.
  apply map_same. eapply Forall_impl; [|exact T]. intros [t n l] B. cbn [de_tag] in B. unfold entry_via. cbn [de_tag de_npe de_data].
  rewrite tag32_small by exact B. f_equal. apply map_id_all. apply via_binary.
Qed.

Lemma lossless_via : forall c r s, lossless c s -> via41 false r (nanospline c) s = s.
Proof.
  intros c r s [L1 L2 L3 T3 L4]. destruct s as [f n e en pg nd ed edn nv cs ps].
  cbn [mesh_format nodes elements entities physical_groups node_data element_data element_node_data ns_version curves patches] in *.
  apply Forall_app in L3. destruct L3 as [L3 L5]. apply Forall_app in L5. destruct L5 as [L5 L6].
  apply Forall_app in T3. destruct T3 as [T3 T5]. apply Forall_app in T5. destruct T5 as [T5 T6].
  assert (DD : forall l, Forall (fun d => real_tags (d_header d) = []) l ->
            Forall (fun d => Forall (fun e => 0 <= de_tag e <= INT_MAX) (d_entries d)) l -> map (data_via false r) l = l).
  { intros l H T. apply map_same. rewrite Forall_forall in *. intros d Hd. apply data_binary; auto. }
  unfold via41. cbn [mesh_format nodes elements entities physical_groups node_data element_data element_node_data ns_version curves patches].
  f_equal.
  - unfold nodes_via. destruct (n_num_nodes n =? 0) eqn:E; [apply Z.eqb_eq in E; symmetry; auto|].
    destruct n as [a1 a2 a3 a4 bs]. cbn [n_num_blocks n_num_nodes n_min n_max n_blocks]. f_equal. apply map_id_all.
    intros [b1 b2 b3 b4 b5 b6]. unfold node_block_via. cbn [nb_dim nb_tag nb_parametric nb_num nb_tags nb_data]. f_equal.
    apply map_id_all. apply via_binary.
  - unfold elements_via. destruct (e_num_elements e =? 0) eqn:E; [apply Z.eqb_eq in E; symmetry; auto|reflexivity].
  - destruct en as [p1 p2 p3 p4]. unfold entities_via. cbn [points curves_e surfaces_e volumes_e].
    f_equal; apply map_id_all; intros []; reflexivity.
  - apply DD; assumption.
  - apply DD; assumption.
  - apply DD; assumption.
  - destruct (nanospline c); [reflexivity|]. symmetry. apply (L4 eq_refl).
  - destruct (nanospline c); [|symmetry; apply (L4 eq_refl)]. apply map_id_all. intros []. unfold curve_via. cbn. f_equal. apply map_id_all, via_binary.
  - destruct (nanospline c); [|symmetry; apply (L4 eq_refl)]. apply map_id_all. intros []. unfold patch_via. cbn. f_equal. apply map_id_all, via_binary.
Qed.

(** ** 2.2 files written as 4.1 *)

Lemma increasing_nodup : forall l, increasing l -> NoDup l.
Proof.
  intros l. assert (A : forall x l, increasing (x :: l) -> Forall (fun y => x < y) l /\ increasing l).
  { clear l. intros x l. revert x. induction l as [|y l IH]; intros x H; [split; constructor|].
    destruct H as [H1 H2]. destruct (IH y H2) as [F _]. split; [|exact H2]. constructor; [exact H1|].
    eapply Forall_impl; [|exact F]. cbn beta. intros; lia. }
  induction l as [|x l IH]; intro H; constructor.
  - destruct (A x l H) as [F _]. intro I. rewrite Forall_forall in F. specialize (F x I). lia.
  - apply IH. apply (A x l H).
Qed.

Lemma nodup_zlen : forall A (l l' : list A), NoDup l -> incl l l' -> zlen l <= zlen l'.
Proof. intros A l l' N I. unfold zlen. apply inj_le. apply NoDup_incl_length; assumption. Qed.

Lemma table_bounds : forall recs d l, entity_table recs d l -> Forall (fun r => rec_ok r) recs ->
  zlen l <= zlen recs /\
  Forall (fun tp => int_ok (fst tp) /\ Forall int_ok (snd tp) /\ zlen (snd tp) <= zlen recs) l.
Proof.
  intros recs d l [T1 T2 T3] R. rewrite Forall_forall in R.
  assert (TG : forall t ps p, In (t, ps) l -> In p ps -> int_ok t /\ int_ok p /\
             exists r, In r recs /\ rec_entity r = t /\ hd 0 (er_tags r) = p).
  { intros t ps p H1 H2. destruct (proj1 (T3 t p) (ex_intro _ ps (conj H1 H2))) as (r & k & I & _ & E).
    destruct (R r I) as [_ _ RT _]. rewrite E in RT. split; [exact (Forall_inv (Forall_inv_tail RT))|].
    split; [exact (Forall_inv RT)|]. exists r. split; [exact I|]. unfold rec_entity. rewrite E. split; reflexivity. }
  split.
  - rewrite <- (zlen_map _ _ fst l), <- (zlen_map _ _ rec_entity recs). apply nodup_zlen; [apply increasing_nodup; exact T1|].
    intros t Ht. apply in_map_iff in Ht. destruct Ht as ([t' ps] & <- & H). cbn [fst].
    destruct (T2 _ _ H) as [_ NE]. destruct ps as [|p ps]; [congruence|].
    destruct (TG t' (p :: ps) p H (or_introl eq_refl)) as (_ & _ & r & I & E & _). rewrite <- E. apply in_map. exact I.
  - apply Forall_forall. intros [t ps] H. cbn [fst snd]. destruct (T2 _ _ H) as [INC NE].
    split; [destruct ps as [|p ps]; [congruence|]; apply (TG t (p :: ps) p H (or_introl eq_refl))|].
    split; [apply Forall_forall; intros p Hp; apply (TG t ps p H Hp)|].
    rewrite <- (zlen_map _ _ (fun r => hd 0 (er_tags r)) recs). apply nodup_zlen; [apply increasing_nodup; exact INC|].
    intros p Hp. destruct (TG t ps p H Hp) as (_ & _ & r & I & _ & E). rewrite <- E. apply (in_map (fun r => hd 0 (er_tags r))). exact I.
Qed.

Lemma dbl_0 : forall a, dbl_ok a 0.
Proof. intro a. split; [split; [discriminate|reflexivity]|]. intros _. vm_compute. discriminate. Qed.

Lemma fits_less : forall c sz sz' n n', 0 <= n <= n' -> 0 < sz <= sz' -> fits c sz' n' -> fits c sz n.
Proof.
  intros c sz sz' n n' H1 H2 F. apply fits_mul in F; [|lia]. destruct F as [F1 F2].
  eapply (fits_down c sz sz' n n'); [lia| |lia|lia|exact F1|exact F2]. nia.
Qed.

Lemma table_points : forall c a recs d l N, entity_table recs d l -> Forall rec_ok recs -> zlen recs <= N -> fits c sz_Entity N ->
  Forall (point_ok c a) (map point_of l).
Proof.
  intros c a recs d l N T R LE F. destruct (table_bounds recs d l T R) as [_ B]. apply Forall_map.
  eapply Forall_impl; [|exact B]. intros [t ps] (B1 & B2 & B3). cbn [fst snd] in *. pose proof (dbl_0 a).
  split; cbn [point_of fst snd pe_tag pe_x pe_y pe_z pe_phys]; [exact B1|auto|]. split; [exact B2|].
  eapply (fits_less c _ sz_Entity _ N); [|split; [reflexivity|discriminate]|exact F]. pose proof (zlen_nonneg _ ps). lia.
Qed.

Lemma table_entities : forall c a recs d l N, entity_table recs d l -> Forall rec_ok recs -> zlen recs <= N -> fits c sz_Entity N ->
  Forall (entity_ok c a) (map entity_of l).
Proof.
  intros c a recs d l N T R LE F. destruct (table_bounds recs d l T R) as [_ B]. apply Forall_map.
  eapply Forall_impl; [|exact B]. intros [t ps] (B1 & B2 & B3). cbn [fst snd] in *. pose proof (dbl_0 a).
  split; cbn [entity_of fst snd en_tag en_min_x en_min_y en_min_z en_max_x en_max_y en_max_z en_phys en_bnd]; [exact B1|auto|auto| |].
  - split; [exact B2|]. eapply (fits_less c _ sz_Entity _ N); [|split; [reflexivity|discriminate]|exact F]. pose proof (zlen_nonneg _ ps). lia.
  - split; [constructor|]. eapply (fits_less c _ sz_Entity _ N); [|split; [reflexivity|discriminate]|exact F].
    rewrite zlen_nil. pose proof (zlen_nonneg _ recs). lia.
Qed.

(** Entities of [en] in number at most [k], all well. *)
Record few (c : cfg) (a : bool) (k : Z) (en : Entities) : Prop := {
  few_points : Forall (point_ok c a) (points en) /\ zlen (points en) <= k;
  few_curves : Forall (entity_ok c a) (curves_e en) /\ zlen (curves_e en) <= k;
  few_surfaces : Forall (entity_ok c a) (surfaces_e en) /\ zlen (surfaces_e en) <= k;
  few_volumes : Forall (entity_ok c a) (volumes_e en) /\ zlen (volumes_e en) <= k }.

Lemma few_from : forall c a N ps en en', entities_from ps en en' -> Forall rec_ok (all_recs ps) -> fits c sz_Entity N ->
  forall k, few c a k en -> zlen (all_recs ps) <= N -> few c a (k + zlen (all_recs ps)) en'.
Proof.
  intros c a N ps en en' H. induction H as [en|l ps en en' H IH|l ps en en1 en' A H IH]; intros R F k W LE.
  - cbn [all_recs flat_map]. rewrite zlen_nil, Z.add_0_r. exact W.
  - cbn [all_recs flat_map part_recs app] in *. apply IH; assumption.
  - cbn [all_recs flat_map part_recs] in *. fold (all_recs ps) in *. rewrite zlen_app in *.
    apply Forall_app in R. destruct R as [R1 R2].
    pose proof (zlen_nonneg _ l) as P1. pose proof (zlen_nonneg _ (all_recs ps)) as P2.
    rewrite Z.add_assoc. apply IH; [exact R2|exact F| |lia].
    destruct A as (l0 & l1 & l2 & l3 & T0 & T1 & T2 & T3 & E0 & E1 & E2 & E3).
    destruct W as [[W1 V1] [W2 V2] [W3 V3] [W4 V4]].
    split; rewrite ?E0, ?E1, ?E2, ?E3, zlen_app, zlen_map; (split; [apply Forall_app; split; [assumption|]|]).
    + eapply (table_points c a l 0 l0 N); try assumption. lia.
    + pose proof (proj1 (table_bounds _ _ _ T0 R1)). lia.
    + eapply (table_entities c a l 1 l1 N); try assumption. lia.
    + pose proof (proj1 (table_bounds _ _ _ T1 R1)). lia.
    + eapply (table_entities c a l 2 l2 N); try assumption. lia.
    + pose proof (proj1 (table_bounds _ _ _ T2 R1)). lia.
    + eapply (table_entities c a l 3 l3 N); try assumption. lia.
    + pose proof (proj1 (table_bounds _ _ _ T3 R1)). lia.
Qed.

Lemma up41 : forall c ascii a qs lo hi s, content22 ascii qs lo hi s -> Forall (sec22_ok c ascii) qs ->
  loadable c (parts_of qs) lo hi -> upgradable c a qs -> consistent41 c a (to41 a s).
Proof.
  intros c ascii a qs lo hi s C OK LD [U1 U2 U3 U4 U5 U6].
  assert (RO : Forall rec_ok (all_recs (parts_of qs))).
  { clear - OK. apply Forall_forall. intros r Hr. apply in_flat_map in Hr. destruct Hr as (p & Hp & Hr).
    rewrite Forall_forall in OK. assert (In (Part p) qs).
    { clear - Hp. induction qs as [|q qs IH]; [destruct Hp|]. destruct q; cbn [parts_of] in Hp.
      - destruct Hp as [->|Hp]; [left; reflexivity|right; auto].
      - right; auto. }
    specialize (OK _ H). destruct p as [l|l]; [destruct Hr|]. cbn [sec22_ok part_ok] in OK. rewrite Forall_forall in OK.
    apply (OK r Hr). }
  assert (NT : Forall (fun n => size_ok (n_tag n)) (all_nodes (parts_of qs))).
  { clear - OK. apply Forall_forall. intros r Hr. apply in_flat_map in Hr. destruct Hr as (p & Hp & Hr).
    rewrite Forall_forall in OK. assert (In (Part p) qs).
    { clear - Hp. induction qs as [|q qs IH]; [destruct Hp|]. destruct q; cbn [parts_of] in Hp.
      - destruct Hp as [->|Hp]; [left; reflexivity|right; auto].
      - right; auto. }
    specialize (OK _ H). destruct p as [l|l]; [|destruct Hr]. cbn [sec22_ok part_ok] in OK. rewrite Forall_forall in OK.
    apply (OK r Hr). }
  set (ps := parts_of qs) in *.
  assert (M0 : 0 <= mem c).
  { destruct U4 as [_ X]. pose proof (zlen_nonneg _ (all_nodes ps)). change sz_NodeBlock with 72 in X. lia. }
  destruct C as [MO C1 C2 C3 C4 C5 C6 C7]. fold ps in MO.
  destruct MO as [M1 M2 M3 M4 M5 [N1 N2 N3 E1 E2] M6 _ _ M7 M8 _ M9 M10 M11 _ _ _].
  cbn [bare mesh_format nodes elements entities] in *.
  pose proof (content_others c a ascii (extras_of qs) M0 U3) as [O1 O2 O3 O4 O5].
  destruct (fits_mul c sz_NodeBlock _ eq_refl U4) as [RN1 RN2].
  destruct (fits_mul c sz_size _ eq_refl U5) as [RE1 RE2].
  pose proof (zlen_nonneg _ (all_nodes ps)) as PN. pose proof (zlen_nonneg _ (all_recs ps)) as PR.
  assert (LO : size_ok lo).
  { destruct (ld_lo _ _ _ _ LD) as ([->|I] & _); [unfold size_ok, SIZE_MAX, two64; lia|].
    apply in_map_iff in I. destruct I as (n & <- & I). rewrite Forall_forall in NT. auto. }
  assert (HI : size_ok hi).
  { destruct (ld_hi _ _ _ _ LD) as ([->|I] & _); [unfold size_ok, two64; lia|].
    apply in_map_iff in I. destruct I as (n & <- & I). rewrite Forall_forall in NT. auto. }
  split; [reflexivity|reflexivity| | | |].
  - cbn [to41 as_version as_type set_format mesh_format data_size]. rewrite M1. reflexivity.
  - split; cbn [to41 as_version as_type set_format physical_groups nodes elements node_data element_data element_node_data].
    + rewrite C1. exact O1.
    + rewrite M3. apply to_size_range.
    + intros _. split.
      * exact N1.
      * rewrite M4. exact LO.
      * rewrite M5. exact HI.
      * eapply (fits_down c _ sz_NodeBlock _ _ (zlen_nonneg _ _)); [|reflexivity|reflexivity|exact RN1|exact RN2].
        apply Z.mul_le_mono_nonneg_r; [discriminate|]. rewrite <- M2. apply pieces_zlen.
        eapply Forall_impl; [|exact M6]. cbn beta. intros b Hb X. unfold block_nodes in X.
        destruct (nb_tags b); [congruence|discriminate].
      * rewrite Forall_forall in *. intros b Hb. destruct (N2 b Hb) as [B1 B2 B3 B4 B5 B6 B7].
        assert (ZB : zlen (nb_tags b) <= zlen (all_nodes ps)).
        { rewrite <- M2. rewrite <- (nodes_of_tags (Z.to_nat (node_width b)) (nb_tags b) (nb_data b)), zlen_map.
          apply (flat_map_zlen _ _ block_nodes). exact Hb. }
        pose proof (zlen_nonneg _ (nb_tags b)) as PT.
        assert (W3 : node_width b = 3) by (unfold node_width; rewrite B1; reflexivity).
        split; try assumption.
        -- rewrite B1. unfold int_ok, INT_MIN, INT_MAX. lia.
        -- intros _ _. rewrite B1. lia.
        -- rewrite W3. unfold INT_MAX. lia.
        -- rewrite W3, B5. lia.
        -- apply Forall_forall. intros x Hx.
           destruct (coordinate_of x (nb_tags b) (nb_data b)) as (n & Hn & Hxyz); [rewrite B5, B4; reflexivity|exact Hx|].
           assert (IN : In n (all_nodes ps)).
           { rewrite <- M2. apply in_flat_map. exists b. split; [exact Hb|]. unfold block_nodes. rewrite W3. exact Hn. }
           destruct (U1 n IN) as (G2 & G3 & G4). destruct Hxyz as [->|[->| ->]]; assumption.
        -- eapply (fits_down c _ sz_NodeBlock _ _ (zlen_nonneg _ _)); [|reflexivity|reflexivity|exact RN1|exact RN2].
           change sz_size with 8. change sz_NodeBlock with 72. lia.
        -- eapply (fits_down c _ sz_NodeBlock _ _ (zlen_nonneg _ _)); [|reflexivity|reflexivity|exact RN1|exact RN2].
           rewrite B5, B4. change sz_double with 8. change sz_NodeBlock with 72. lia.
    + rewrite M9. destruct ascii; [apply to_size_range|].
      assert (LR : forall ps acc, zlen (last_recs ps acc) <= zlen acc + zlen (all_recs ps)).
      { clear. intro ps. induction ps as [|[l|l] ps IH]; intro acc; cbn [last_recs all_recs flat_map part_recs app].
        - rewrite zlen_nil. lia.
        - apply IH.
        - fold (all_recs ps). specialize (IH l). rewrite zlen_app. pose proof (zlen_nonneg _ acc). lia. }
      specialize (LR ps []). rewrite zlen_nil in LR. pose proof (zlen_nonneg _ (last_recs ps [])).
      destruct U6 as [X _].
      assert (Y : PTRDIFF_MAX / sz_Entity < two64) by (vm_compute; reflexivity). unfold size_ok. lia.
    + intros N0.
      assert (NE : all_recs ps <> []).
      { intro X. apply N0. rewrite M9. destruct ascii; [rewrite X; reflexivity|].
        assert (LR : forall ps acc, all_recs ps = [] -> acc = [] -> last_recs ps acc = []).
        { clear. intro ps. induction ps as [|[l|l] ps IH]; intros acc H A; cbn [last_recs all_recs flat_map part_recs app] in *; [exact A|auto|].
          apply app_eq_nil in H. destruct H as [-> H]. apply IH; [exact H|reflexivity]. }
        rewrite (LR ps [] X eq_refl). reflexivity. }
      destruct (M10 NE U2) as [(I1 & I1b & _) (I2 & I2b & _)].
      assert (IO : forall x, In x (map er_id (all_recs ps)) -> size_ok x).
      { intros x I. apply in_map_iff in I. destruct I as (r & <- & I). rewrite Forall_forall in RO, U2.
        pose proof (ro_id r (RO r I)) as [_ Y]. specialize (U2 r I). cbn beta in U2. unfold size_ok, INT_MAX, two64 in *. lia. }
      split.
      * exact E1.
      * destruct I1 as [->|I1]; [unfold size_ok, SIZE_MAX, two64; lia|auto].
      * destruct I2 as [->|I2]; [unfold size_ok, two64; lia|auto].
      * eapply (fits_less c _ sz_ElementBlock _ (zlen (all_recs ps))); [|split; [reflexivity|discriminate]|exact (ld_blocks _ _ _ _ LD)].
        split; [apply zlen_nonneg|]. rewrite <- (zlen_map _ _ rec_element), <- M7. apply pieces_zlen.
        rewrite Forall_forall in *. intros b Hb. apply block_elements_full; auto.
      * rewrite Forall_forall in *. intros b Hb. pose proof (block_words b (E2 b Hb)) as BW.
        destruct (E2 b Hb) as [B1 B2 B3 B4 B5].
        split; try assumption.
        -- destruct (gmsh_dim_range _ _ B1) as [X _]. unfold int_ok, INT_MIN, INT_MAX. lia.
        -- eapply (fits_down c _ sz_size _ _ (zlen_nonneg _ _)); [|reflexivity|reflexivity|exact RE1|exact RE2].
           apply Z.mul_le_mono_nonneg_r; [discriminate|]. rewrite <- M7, BW. unfold mesh_elements. rewrite flat_map_flat.
           apply (flat_map_zlen _ _ (fun b => flat_map element_words (block_elements b))). exact Hb.
    + rewrite C2. exact O2.
    + rewrite C3. exact O3.
    + rewrite C4. exact O4.
  - cbn [to41 as_version as_type set_format entities].
    assert (W : few c a (0 + zlen (all_recs ps)) (entities s)).
    { apply (few_from c a (zlen (all_recs ps)) ps _ _ M11 RO U6); [|lia].
      split; (split; [constructor|apply Z.le_refl]). }
    destruct W as [[W1 V1] [W2 V2] [W3 V3] [W4 V4]].
    split; (split; [assumption|]); (eapply (fits_less c _ sz_Entity _ (zlen (all_recs ps))); [|split; [reflexivity|discriminate]|exact U6]);
      (split; [apply zlen_nonneg|lia]).
  - intro HN. destruct (O5 HN) as [S1 S2 S3].
    split; cbn [to41 as_version as_type set_format ns_version curves patches].
    + rewrite C5. exact S1.
    + rewrite C6. exact S2.
    + rewrite C7. exact S3.
Qed.

(** Entities of 2.2 files have no coordinates, so writing them changes nothing. *)
Lemma via_0 : forall a, via a ascii_round 0 = 0.
Proof. intros []; vm_compute; reflexivity. Qed.

Lemma entities_stay : forall a ps en en', entities_from ps en en' ->
  entities_via a ascii_round en = en -> entities_via a ascii_round en' = en'.
Proof.
  intros a ps en en' H. induction H as [en|l ps en en' H IH|l ps en en1 en' A H IH]; intro E; [exact E|auto|].
  apply IH. destruct A as (l0 & l1 & l2 & l3 & _ & _ & _ & _ & E0 & E1 & E2 & E3). destruct en1 as [q0 q1 q2 q3], en as [w0 w1 w2 w3].
  unfold entities_via in *. cbn [points curves_e surfaces_e volumes_e] in *. subst. injection E as P0 P1 P2 P3.
  f_equal; rewrite map_app; f_equal; try assumption; rewrite map_map; apply map_ext; intros [t p];
    unfold point_via, entity_via, point_of, entity_of;
    cbn [pe_tag pe_x pe_y pe_z pe_phys en_tag en_min_x en_min_y en_min_z en_max_x en_max_y en_max_z en_phys en_bnd];
    rewrite !via_0; reflexivity.
Qed.

Lemma upgraded : forall c ascii a qs lo hi b, any22 ascii qs b -> Forall (sec22_ok c ascii) qs ->
  loadable c (parts_of qs) lo hi -> upgradable c a qs ->
  exists s b' s', load_msh c b = Ok s /\ save_msh c (to41 a s) = (b', Ok tt) /\ load_msh c b' = Ok s' /\
    s' = via41 a ascii_round (nanospline c) (to41 a s) /\
    mesh_nodes (nodes s') = map (node_round a ascii_round) (all_nodes (parts_of qs)) /\
    n_min (nodes s') = lo /\ n_max (nodes s') = hi /\
    entities_from (parts_of qs) (entities spec_default) (entities s') /\
    mesh_elements (elements s') =
      (if (if ascii then false else zlen (last_recs (parts_of qs) []) =? 0) then [] else map rec_element (all_recs (parts_of qs))).
Proof.
  intros c ascii a qs lo hi b H OK LD UP. destruct (any22_loads c ascii qs b lo hi H OK LD) as (s & L & C).
  destruct (roundtrip41 c a _ (up41 c ascii a qs lo hi s C OK LD UP)) as (b' & S & L').
  exists s, b'. eexists. split; [exact L|]. split; [exact S|]. split; [exact L'|]. split; [reflexivity|].
  destruct C as [MO _ _ _ _ _ _ _]. set (ps := parts_of qs) in *.
  destruct MO as [_ M2 M3 M4 M5 [_ N2 _ _ _] _ _ _ M7 _ _ M9 _ M11 _ _ _]. cbn [bare nodes elements entities] in *.
  assert (BN : zlen (all_nodes ps) < two64).
  { destruct (up_node_blocks _ _ _ UP) as [X _]. fold ps in X. eapply Z.le_lt_trans; [exact X|]. vm_compute. reflexivity. }
  assert (BR : zlen (all_recs ps) < two64).
  { destruct (up_entities _ _ _ UP) as [X _]. fold ps in X. eapply Z.le_lt_trans; [exact X|]. vm_compute. reflexivity. }
  pose proof (zlen_nonneg _ (all_nodes ps)) as P1. pose proof (zlen_nonneg _ (all_recs ps)) as P2.
  rewrite to_size_id in M3 by lia. cbn [via41 to41 as_version as_type set_format nodes elements entities].
  assert (NZ : (n_num_nodes (nodes s) =? 0) = false).
  { apply Z.eqb_neq. rewrite M3. intro X. apply (ld_some _ _ _ _ LD). destruct (all_nodes ps) as [|x l]; [reflexivity|].
    rewrite zlen_cons in X. pose proof (zlen_nonneg _ l). lia. }
  split; [|split; [|split; [|split]]].
  - rewrite mesh_nodes_via; [rewrite M2; reflexivity|exact N2|rewrite M2; exact M3].
  - unfold nodes_via. rewrite NZ. exact M4.
  - unfold nodes_via. rewrite NZ. exact M5.
  - rewrite (entities_stay a _ _ _ M11); [exact M11|reflexivity].
  - destruct ascii.
    + rewrite to_size_id in M9 by lia. rewrite mesh_elements_via; [exact M7|]. rewrite M7, zlen_map. exact M9.
    + unfold elements_via. rewrite M9. destruct (zlen (last_recs ps []) =? 0); [reflexivity|exact M7].
Qed.
