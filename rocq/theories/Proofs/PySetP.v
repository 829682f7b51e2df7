(** Assignments to attributes of Python objects. *)

From Verif Require Import Model.LoadMsh Spec.PySet Proofs.PyCallsP.

Ltac Zify.zify_post_hook ::= idtac.

(** ** Conversions *)

Record reads {A} (k : kind) (f : pyval -> option A) (inj : A -> pyval) : Prop := {
  rd_some : forall v, holds k v -> exists y, f v = Some y;
  rd_holds : forall v y, f v = Some y -> holds k v /\ v = inj y }.

Lemma in_int_ok : forall z, in_int z = true <-> int_ok z.
Proof. intro z. unfold in_int, int_ok. rewrite andb_true_iff, !Z.leb_le. tauto. Qed.
Lemma in_size_ok : forall z, in_size z = true <-> size_ok z.
Proof. intro z. unfold in_size, size_ok, two64. rewrite andb_true_iff, !Z.leb_le. change SIZE_MAX with (18446744073709551616 - 1). lia. Qed.

Lemma forallb_Forall : forall A (f : A -> bool) (P : A -> Prop) l, (forall x, f x = true <-> P x) -> (forallb f l = true <-> Forall P l).
Proof. intros A f P l H. rewrite forallb_forall, Forall_forall. firstorder. Qed.

Lemma reads_int : reads KInt as_int VInt.
Proof.
  split.
  - intros v H. destruct v; try contradiction. cbn [holds] in H. apply in_int_ok in H. cbn [as_int]. rewrite H. eauto.
  - intros [] y H; try discriminate. cbn [as_int holds] in *. destruct (in_int z) eqn:E; [|discriminate].
    apply in_int_ok in E. injection H as <-. auto.
Qed.
Lemma reads_size : reads KSize as_size VInt.
Proof.
  split.
  - intros v H. destruct v; try contradiction. cbn [holds] in H. apply in_size_ok in H. cbn [as_size]. rewrite H. eauto.
  - intros [] y H; try discriminate. cbn [as_size holds] in *. destruct (in_size z) eqn:E; [|discriminate].
    apply in_size_ok in E. injection H as <-. auto.
Qed.
Lemma reads_float : reads KFloat as_float VFloat.
Proof.
  split.
  - intros [] H; try destruct H. cbn. eauto.
  - intros [] y H; try discriminate. injection H as <-. cbn. auto.
Qed.
Lemma reads_floats : reads KFloats as_floats VFloats.
Proof.
  split.
  - intros [] H; try destruct H. cbn. eauto.
  - intros [] y H; try discriminate. injection H as <-. cbn. auto.
Qed.
Lemma reads_str : reads KStr as_str VStr.
Proof.
  split.
  - intros v H. destruct v; try contradiction. cbn [holds] in H. apply ok_utf8_iff in H. cbn [as_str]. unfold py_str. rewrite H. eauto.
  - intros v y H. destruct v; try discriminate. cbn [as_str holds] in *. unfold py_str in H. destruct (utf8_ok b) eqn:E; [|discriminate].
    apply ok_utf8_iff in E. injection H as <-. auto.
Qed.
Lemma reads_ints : reads KInts as_ints VInts.
Proof.
  split.
  - intros v H. destruct v; try contradiction. cbn [holds as_ints] in *. apply (forallb_Forall _ in_int) in H; [|exact in_int_ok]. rewrite H. eauto.
  - intros v y H. destruct v; try discriminate. cbn [holds as_ints] in *. destruct (forallb in_int l) eqn:E; [|discriminate].
    apply (forallb_Forall _ in_int int_ok) in E; [|exact in_int_ok]. injection H as <-. auto.
Qed.
Lemma reads_sizes : reads KSizes as_sizes VInts.
Proof.
  split.
  - intros v H. destruct v; try contradiction. cbn [holds as_sizes] in *. apply (forallb_Forall _ in_size) in H; [|exact in_size_ok]. rewrite H. eauto.
  - intros v y H. destruct v; try discriminate. cbn [holds as_sizes] in *. destruct (forallb in_size l) eqn:E; [|discriminate].
    apply (forallb_Forall _ in_size size_ok) in E; [|exact in_size_ok]. injection H as <-. auto.
Qed.
Lemma reads_strs : reads KStrs as_strs VStrs.
Proof.
  split.
  - intros v H. destruct v; try contradiction. cbn [holds as_strs] in *. apply (forallb_Forall _ utf8_ok) in H; [|exact ok_utf8_iff]. rewrite H. eauto.
  - intros v y H. destruct v; try discriminate. cbn [holds as_strs] in *. destruct (forallb utf8_ok l) eqn:E; [|discriminate].
    apply (forallb_Forall _ utf8_ok utf8) in E; [|exact ok_utf8_iff]. injection H as <-. auto.
Qed.

(** Objects of one class. *)
Record downcast {A} (cls : String.string) (f : pyobj -> option A) (mk : A -> pyobj) : Prop := {
  dc_some : forall o, class_name o = cls -> exists y, f o = Some y;
  dc_class : forall o y, f o = Some y -> class_name o = cls /\ o = mk y }.

Lemma reads_obj : forall A cls f (mk : A -> pyobj), downcast cls f mk -> reads (KObj cls) (as_obj f) (fun x => VObj (mk x)).
Proof.
  intros A cls f mk [D1 D2]. split.
  - intros v H. destruct v; try contradiction. exact (D1 o H).
  - intros v y H. destruct v; try discriminate. cbn [as_obj holds] in *. apply D2 in H. destruct H as [H ->]. auto.
Qed.

Lemma reads_objs : forall A cls f (mk : A -> pyobj), downcast cls f mk -> reads (KObjs cls) (as_objs f) (fun l => VObjs (map mk l)).
Proof.
  intros A cls f mk [D1 D2]. split.
  - intros v H. destruct v; try contradiction. cbn [as_objs holds] in *. induction H as [|o l H _ [r IH]]; [exists []; reflexivity|].
    destruct (D1 o H) as [y Y]. exists (y :: r). cbn [all_of]. rewrite Y, IH. reflexivity.
  - intros v y H. destruct v; try discriminate. cbn [as_objs holds] in *. revert y H. induction l as [|o l IH]; intros y H.
    + injection H as <-. split; [constructor|reflexivity].
    + cbn [all_of] in H. destruct (f o) as [a|] eqn:E; [|discriminate]. cbn [pbind] in H. destruct (all_of f l) as [r|]; [|discriminate].
      injection H as <-. apply D2 in E. destruct E as [E ->]. destruct (IH r eq_refl) as [F X]. injection X as ->.
      split; [constructor; assumption|reflexivity].
Qed.

Ltac dc := split; [intros o H; destruct o; try discriminate H; eexists; reflexivity
                  |intros o y H; destruct o; try discriminate H; injection H as <-; split; reflexivity].
Lemma dc_format : downcast "MeshFormat" as_format OFormat. Proof. dc. Qed.
Lemma dc_node_block : downcast "NodeBlock" as_node_block ONodeBlock. Proof. dc. Qed.
Lemma dc_nodes : downcast "Nodes" as_nodes ONodes. Proof. dc. Qed.
Lemma dc_element_block : downcast "ElementBlock" as_element_block OElementBlock. Proof. dc. Qed.
Lemma dc_elements : downcast "Elements" as_elements OElements. Proof. dc. Qed.
Lemma dc_header : downcast "DataHeader" as_header OHeader. Proof. dc. Qed.
Lemma dc_entry : downcast "DataEntry" as_entry OEntry. Proof. dc. Qed.
Lemma dc_data : downcast "Data" as_data OData. Proof. dc. Qed.
Lemma dc_point : downcast "PointEntity" as_point OPoint. Proof. dc. Qed.
Lemma dc_curve : downcast "CurveEntity" as_curve OCurve. Proof. dc. Qed.
Lemma dc_surface : downcast "SurfaceEntity" as_surface OSurface. Proof. dc. Qed.
Lemma dc_volume : downcast "VolumeEntity" as_volume OVolume. Proof. dc. Qed.
Lemma dc_entities : downcast "Entities" as_entities OEntities. Proof. dc. Qed.
Lemma dc_group : downcast "PhysicalGroup" as_group OGroup. Proof. dc. Qed.

Create HintDb rd.
#[local] Hint Resolve reads_int reads_size reads_float reads_floats reads_str reads_ints reads_sizes reads_strs
  reads_obj reads_objs dc_format dc_node_block dc_nodes dc_element_block dc_elements dc_header dc_entry dc_data dc_point
  dc_curve dc_surface dc_volume dc_entities dc_group : rd.

(** ** One setter for each member *)

(** The setter of the member called [n] of type [k]. *)
Definition setter_ok (o : pyobj) (n : String.string) (k : kind) (f : pyval -> option pyobj) : Prop :=
  (forall v, holds k v -> exists o', f v = Some o') /\
  (forall v o', f v = Some o' -> holds k v /\ assigned o n v o').

Lemma setter_reads : forall A o n k (f : pyval -> option A) inj g, reads k f inj ->
  (forall y, assigned o n (inj y) (g y)) -> setter_ok o n k (fun v => pbind (f v) (fun y => Some (g y))).
Proof.
  intros A o n k f inj g [R1 R2] G. split.
  - intros v H. destruct (R1 v H) as [y E]. exists (g y). cbn. rewrite E. reflexivity.
  - intros v o' H. cbn in H. destruct (f v) as [y|] eqn:E; [|discriminate]. injection H as <-.
    destruct (R2 v y E) as [R ->]. auto.
Qed.

Definition entry_ok (o : pyobj) (s : setter) (m : String.string * kind) : Prop :=
  fst s = fst m /\ setter_ok o (fst m) (snd m) (snd s).

Lemma setters_ok : forall o, Forall2 (entry_ok o) (setters o) (members (class_name o)).
Proof.
  intro o. destruct o as [x|x|x|x|x|x|x|x|x|x|x|x|x|x|x]; destruct x;
    cbn [setters box_setters class_name members String.eqb Ascii.eqb Bool.eqb orb];
    repeat (apply Forall2_cons; [split; [reflexivity|cbn [fst snd]; eapply setter_reads; [eauto with rd|intro y; split; reflexivity]]|]);
    apply Forall2_nil.
Qed.

Lemma find_member : forall o ss ms name k, Forall2 (entry_ok o) ss ms -> NoDup (map fst ms) -> In (name, k) ms ->
  exists f, find_setter name ss = Some f /\ setter_ok o name k f.
Proof.
  intros o ss ms name k H. induction H as [|[n f] [n' k'] ss ms [E X] _ IH]; [intros _ []|].
  cbn [fst snd] in *. subst n'. intros N I. inversion N as [|? ? N1 N2]. subst. cbn [find_setter].
  destruct I as [I|I].
  - injection I as -> ->. rewrite String.eqb_refl. eauto.
  - destruct (String.eqb_spec n name) as [->|_]; [|exact (IH N2 I)].
    exfalso. apply N1. apply (in_map fst) in I. exact I.
Qed.

Lemma find_named : forall o ss ms name f, Forall2 (entry_ok o) ss ms -> find_setter name ss = Some f ->
  exists k, In (name, k) ms /\ setter_ok o name k f.
Proof.
  intros o ss ms name f H. induction H as [|[n g] [n' k'] ss ms [E X] _ IH]; [discriminate|].
  cbn [fst snd find_setter] in *. subst n'. destruct (String.eqb_spec n name) as [->|_].
  - intros [= <-]. exists k'. split; [left; reflexivity|exact X].
  - intro F. destruct (IH F) as (k & I & K). exists k. split; [right; exact I|exact K].
Qed.

Ltac no_dup := repeat (apply NoDup_cons; [cbn [In map fst]; intuition discriminate|]); apply NoDup_nil.

Lemma members_once : forall o, NoDup (map fst (members (class_name o))).
Proof.
  intro o. destruct o; cbn [class_name members String.eqb Ascii.eqb Bool.eqb orb map fst]; no_dup.
Qed.

Lemma attributes_members : forall o, map fst (attributes o) = map fst (members (class_name o)).
Proof. intro o. destruct o; reflexivity. Qed.

Lemma set_accepts : forall o name v, accepts o name v <-> exists o', set_attr o name v = Some o'.
Proof.
  intros o name v. split.
  - intros (k & I & H). destruct (find_member o _ _ name k (setters_ok o) (members_once o) I) as (f & F & [S1 _]).
    destruct (S1 v H) as [o' E]. exists o'. unfold set_attr. rewrite F. exact E.
  - intros [o' E]. unfold set_attr in E. destruct (find_setter name (setters o)) as [f|] eqn:F; [|discriminate].
    destruct (find_named o _ _ name f (setters_ok o) F) as (k & I & [_ S2]). exists k. split; [exact I|]. exact (proj1 (S2 v o' E)).
Qed.

Lemma set_assigned : forall o name v o', set_attr o name v = Some o' -> assigned o name v o'.
Proof.
  intros o name v o' E. unfold set_attr in E. destruct (find_setter name (setters o)) as [f|] eqn:F; [|discriminate].
  destruct (find_named o _ _ name f (setters_ok o) F) as (k & I & [_ S2]). exact (proj2 (S2 v o' E)).
Qed.

Lemma map_inj : forall A B (f : A -> B) l l', (forall x y, f x = f y -> x = y) -> map f l = map f l' -> l = l'.
Proof.
  intros A B f l l' F. revert l'. induction l as [|x l IH]; intros [|y l'] H; try discriminate; [reflexivity|].
  injection H as H1 H2. f_equal; [exact (F _ _ H1)|exact (IH _ H2)].
Qed.

Lemma same_object : forall o o', class_name o = class_name o' -> attributes o = attributes o' -> unseen o = unseen o' -> o = o'.
Proof.
  intros o o' C A U. destruct o as [x|x|x|x|x|x|x|x|x|x|x|x|x|x|x], o' as [y|y|y|y|y|y|y|y|y|y|y|y|y|y|y]; try discriminate C;
    destruct x, y; cbn [attributes box] in A; injection A; intros; subst; f_equal;
    try (unfold unseen in U; cbn [MshSpec.ns_version MshSpec.curves MshSpec.patches] in U; injection U as -> -> ->);
    repeat match goal with H : map _ _ = map _ _ |- _ => apply map_inj in H; [|intros ? ? [= ->]; reflexivity]; subst end;
    reflexivity.
Qed.

(** ** Reading back *)

Lemma find_replaced : forall name v l, In name (map fst l) -> find_value name (map (replaced name v) l) = Some v.
Proof.
  intros name v l. induction l as [|[n w] l IH]; [intros []|]. cbn [map fst find_value]. unfold replaced at 1. cbn [fst].
  destruct (String.eqb_spec n name) as [->|N]; intro I.
  - rewrite String.eqb_refl. reflexivity.
  - destruct I as [I|I]; [contradiction|]. apply String.eqb_neq in N. rewrite N. exact (IH I).
Qed.

Lemma find_other : forall name other v l, other <> name -> find_value other (map (replaced name v) l) = find_value other l.
Proof.
  intros name other v l N. induction l as [|[n w] l IH]; [reflexivity|]. cbn [map find_value]. unfold replaced at 1. cbn [fst].
  destruct (String.eqb_spec n name) as [->|M].
  - destruct (String.eqb_spec name other) as [->|_]; [contradiction|exact IH].
  - destruct (String.eqb n other); [reflexivity|exact IH].
Qed.

Lemma get_set : forall o name v o', set_attr o name v = Some o' -> get_attr o' name = Some v.
Proof.
  intros o name v o' E. destruct (proj2 (set_accepts o name v) (ex_intro _ o' E)) as (k & I & _).
  destruct (set_assigned _ _ _ _ E) as [_ A _]. unfold get_attr. rewrite A. apply find_replaced. rewrite attributes_members.
  apply (in_map fst) in I. exact I.
Qed.

Lemma get_other : forall o name other v o', set_attr o name v = Some o' -> other <> name -> get_attr o' other = get_attr o other.
Proof.
  intros o name other v o' E N. destruct (set_assigned _ _ _ _ E) as [_ A _]. unfold get_attr. rewrite A. apply find_other, N.
Qed.

(** ** Nested objects *)

Lemma member_object : forall o m x, get_attr o m = Some (VObj x) -> In (m, KObj (class_name x)) (members (class_name o)).
Proof.
  intros o m x. unfold get_attr. destruct o; cbn [attributes box find_value];
    repeat (match goal with |- context [String.eqb ?a m] => destruct (String.eqb_spec a m) as [<-|_] end; [intros [= <-]; cbn [In class_name members String.eqb Ascii.eqb Bool.eqb orb]; auto 12|]);
    discriminate.
Qed.

Lemma path_class : forall ms o name v o', set_path o ms name v = Some o' -> class_name o' = class_name o.
Proof.
  intros ms o name v o' H. destruct ms as [|m ms]; cbn [set_path] in H.
  - exact (as_class _ _ _ _ (set_assigned _ _ _ _ H)).
  - destruct (get_attr o m) as [w|]; [|discriminate]. destruct w; try discriminate. destruct (set_path o0 ms name v); [|discriminate].
    exact (as_class _ _ _ _ (set_assigned _ _ _ _ H)).
Qed.

Lemma nested : forall o m x ms name v o', get_attr o m = Some (VObj x) ->
  (set_path o (m :: ms) name v = Some o' <-> exists x', set_path x ms name v = Some x' /\ assigned o m (VObj x') o').
Proof.
  intros o m x ms name v o' G. cbn [set_path]. rewrite G. split.
  - destruct (set_path x ms name v) as [x'|]; [|discriminate]. cbn [pbind]. intro H. exists x'. split; [reflexivity|exact (set_assigned _ _ _ _ H)].
  - intros (x' & E & A). rewrite E. cbn [pbind].
    assert (AC : accepts o m (VObj x')).
    { exists (KObj (class_name x)). split; [exact (member_object o m x G)|]. exact (path_class _ _ _ _ _ E). }
    apply set_accepts in AC. destruct AC as [o2 S]. rewrite S. f_equal. destruct (set_assigned _ _ _ _ S) as [B1 B2 B3].
    destruct A as [A1 A2 A3]. apply same_object; congruence.
Qed.

(** ** Building objects *)

Lemma new_class : forall o, exists o0, new (class_name o) = Some o0 /\ class_name o0 = class_name o /\
  (plain_spec o -> unseen o0 = unseen o).
Proof.
  intro o. destruct o; (eexists; split; [reflexivity|]; split; [reflexivity|]); try reflexivity.
  intros (E1 & E2 & E3). cbn [unseen]. rewrite E1, E2, E3. reflexivity.
Qed.

Lemma accepts_class : forall o o' name v, class_name o = class_name o' -> accepts o name v -> accepts o' name v.
Proof. intros o o' name v E (k & I & H). exists k. rewrite <- E. auto. Qed.

Lemma replaced_here : forall a n v w b, NoDup (map fst (a ++ (n, w) :: b)) ->
  map (replaced n v) (a ++ (n, w) :: b) = a ++ (n, v) :: b.
Proof.
  intros a n v w b N. rewrite map_app in N. cbn [map fst] in N. rewrite map_app. cbn [map].
  assert (K : forall l, ~ In n (map fst l) -> map (replaced n v) l = l).
  { intro l. induction l as [|[m u] l IH]; [reflexivity|]. intro H. cbn [map fst In] in *. unfold replaced at 1. cbn [fst].
    destruct (String.eqb_spec m n) as [->|_]; [exfalso; apply H; auto|]. f_equal. apply IH. intro; apply H; auto. }
  apply NoDup_remove in N. destruct N as [_ N]. rewrite !K by (intro H; apply N, in_or_app; auto).
  unfold replaced. cbn [fst]. rewrite String.eqb_refl. reflexivity.
Qed.

Lemma fill : forall o todo done o1 rest, attributes o = done ++ todo -> (forall n v, In (n, v) todo -> accepts o n v) ->
  (forall n v x, In (n, v) todo -> In x (objects v) -> made x) ->
  made o1 -> class_name o1 = class_name o -> unseen o1 = unseen o -> attributes o1 = done ++ rest -> map fst rest = map fst todo ->
  made o.
Proof.
  intro o. induction todo as [|[n v] todo IH]; intros done o1 rest A AC OB M C U A1 R.
  - destruct rest; [|discriminate]. rewrite <- A1 in A. rewrite (same_object o o1); auto.
  - destruct rest as [|[n' w] rest]; [discriminate|]. cbn [map fst] in R. injection R as -> R.
    destruct (proj1 (set_accepts o1 n v)) as [o2 S].
    { apply (accepts_class o o1); [symmetry; exact C|]. apply AC. left. reflexivity. }
    destruct (set_assigned _ _ _ _ S) as [B1 B2 B3].
    apply (IH (done ++ [(n, v)]) o2 rest).
    + rewrite <- app_assoc. exact A.
    + intros n0 v0 I. apply AC. right. exact I.
    + intros n0 v0 x I. apply (OB n0 v0). right. exact I.
    + eapply made_set; [exact M| |exact S]. intros x. apply (OB n v). left. reflexivity.
    + congruence.
    + congruence.
    + rewrite B2, A1, replaced_here, <- app_assoc; [reflexivity|]. rewrite <- A1, attributes_members. apply members_once.
    + exact R.
Qed.

Lemma plain_objects : forall o n v x, In (n, v) (attributes o) -> In x (objects v) -> plain_spec x.
Proof.
  assert (K : forall A (mk : A -> pyobj) l x, (forall a, plain_spec (mk a)) -> In x (map mk l) -> plain_spec x).
  { intros A mk l x H I. apply in_map_iff in I. destruct I as (a & <- & _). apply H. }
  intros o n v x H. destruct o; cbn [attributes box In] in H;
    repeat (destruct H as [H|H]; [injection H as _ <-; cbn [objects In]; intro I;
      try contradiction; try (destruct I as [<-|[]]; exact Logic.I); try (revert I; apply K; intro; exact Logic.I)|]); destruct H.
Qed.

Lemma built : forall o, typed o -> plain_spec o -> made o.
Proof.
  fix IH 2. intros o [T1 T2] P. destruct (new_class o) as (o0 & N & C & U).
  apply (fill o (attributes o) [] o0 (attributes o0)); auto.
  - intros n v x I J. apply IH; [exact (T2 n v x I J)|]. exact (plain_objects o n v x I J).
  - exact (made_new _ _ N).
  - rewrite !attributes_members, C. reflexivity.
Qed.

Lemma made_plain : forall o, made o -> plain_spec o.
Proof.
  intros o M. induction M as [cls o N|o name v o' M IH _ _ S].
  - unfold new in N. cbn [find_new] in N.
    repeat (match type of N with context [String.eqb ?a cls] => destruct (String.eqb a cls) end; [injection N as <-; cbn; auto|]). discriminate.
  - destruct (set_assigned _ _ _ _ S) as [B1 _ B3]. destruct o' as [| | | | | | | | | | | | | |s']; try exact Logic.I.
    destruct o as [| | | | | | | | | | | | | |s]; try discriminate B1. cbn [unseen plain_spec] in *. injection B3 as -> -> ->. exact IH.
Qed.

(** ** New objects *)

Lemma new_fresh : forall cls o, new cls = Some o -> class_name o = cls /\ fresh o /\ plain_spec o.
Proof.
  assert (K : forall o, In o [OFormat mf_default; ONodes n_default; OElements e_default; OHeader dh_default; OEntities ents_default] -> fresh o).
  { intros o H. cbn [In] in H. repeat (destruct H as [<-|H]); try destruct H;
      (split; intros name v H; cbn [attributes In] in H; repeat (destruct H as [H|H]; [try discriminate H; injection H as <- <-; reflexivity|]); destruct H). }
  assert (K' : forall o, In o [ONodeBlock nb_default; OElementBlock eb_default; OEntry de_default; OPoint pe_default; OCurve en_default;
      OSurface en_default; OVolume en_default; OGroup pg_default; OData d_default; OSpec spec_default] -> fresh o).
  { intros o H. cbn [In] in H. repeat (destruct H as [<-|H]); try destruct H;
      (split; intros name v H; cbn [attributes box In] in H; repeat (destruct H as [H|H];
        [try discriminate H; injection H as <- <-; first [reflexivity | exact Logic.I | apply K; cbn [In]; auto 12]|]); destruct H). }
  intros cls o H. unfold new in H. cbn [find_new] in H.
  repeat (match type of H with context [String.eqb ?a cls] => destruct (String.eqb_spec a cls) as [<-|_] end;
    [injection H as <-; split; [reflexivity|]; split; [first [apply K; cbn [In]; auto 12; fail | apply K'; cbn [In]; auto 20]|cbn; auto]|]).
  discriminate.
Qed.
