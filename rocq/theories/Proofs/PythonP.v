(** What __repr__ returns. *)

From Verif Require Import Spec.Python Proofs.BytesP Proofs.RtBase Proofs.NumeralsP Proofs.ShowP
  Proofs.HeaderP Proofs.Utf8P Proofs.PyFloatP.

Ltac Zify.zify_post_hook ::= idtac.

(** ** ASCII *)

Lemma digit_ascii : forall d, ascii (digit_chr d).
Proof.
  intro d. unfold digit_chr. repeat match goal with |- context [if ?b then _ else _] => destruct b end; reflexivity.
Qed.
Lemma chrs_ascii : forall l, Forall ascii (map digit_chr l).
Proof. intro l. apply Forall_forall. intros x H. apply in_map_iff in H as (d & <- & _). apply digit_ascii. Qed.
Lemma num_ascii : forall z, Forall ascii (to_string z).
Proof.
  intro z. unfold to_string, show_Z, show_nonneg. destruct (z <? 0); [constructor; [reflexivity|]|]; apply chrs_ascii.
Qed.
Lemma float_ascii : forall x, Forall ascii (to_string_double x).
Proof.
  intro x. unfold to_string_double, show_fixed_mag. apply Forall_app. split; [destruct (dneg x); repeat constructor|].
  destruct (_ =? _); [repeat constructor|]. destruct (_ <? _); [repeat constructor|].
  apply Forall_app. split; [apply chrs_ascii|]. constructor; [reflexivity|]. apply chrs_ascii.
Qed.

Lemma ascii_ok : forall b, Forall ascii b -> utf8_ok b = true.
Proof. intros b F. rewrite <- (app_nil_r b). rewrite ok_ascii by exact F. reflexivity. Qed.
Lemma py_ascii : forall b, Forall ascii b -> py_str b = Some b.
Proof. intros b F. unfold py_str. rewrite ascii_ok by exact F. reflexivity. Qed.

Ltac ascii := rewrite ?Forall_app;
  repeat match goal with |- _ /\ _ => split end;
  try apply num_ascii; try apply float_ascii; try (repeat constructor; fail).

(** ** The texts *)

Definition t_format (f : MeshFormat) : bytes :=
  str "MeshFormat(version=" ++ version f ++ str ", file_type=" ++ to_string (file_type f) ++
  str ", data_size=" ++ to_string (data_size f) ++ str ")".
Definition t_nodes (n : Nodes) : bytes :=
  str "Nodes(num_entity_blocks=" ++ to_string (n_num_blocks n) ++ str ", num_nodes=" ++ to_string (n_num_nodes n) ++
  str ", min_node_tag=" ++ to_string (n_min n) ++ str ", max_node_tag=" ++ to_string (n_max n) ++ str ")".
Definition t_elements (e : Elements) : bytes :=
  str "Elements(num_entity_blocks=" ++ to_string (e_num_blocks e) ++
  str ", num_elements=" ++ to_string (e_num_elements e) ++
  str ", min_element_tag=" ++ to_string (e_min e) ++ str ", max_element_tag=" ++ to_string (e_max e) ++ str ")".
Definition t_header (h : DataHeader) : bytes :=
  str "DataHeader(string_tags=" ++ size (string_tags h) ++ str ", real_tags=" ++ size (real_tags h) ++
  str ", int_tags=" ++ size (int_tags h) ++ str ")".
Definition t_entry (e : DataEntry) : bytes :=
  str "DataEntry(tag=" ++ to_string (de_tag e) ++ str ", num_nodes_per_elements=" ++ to_string (de_npe e) ++
  str ", data=" ++ size (de_data e) ++ str ")".
Definition t_list (l : list bytes) : bytes := str "[" ++ joined l ++ str "]".
Definition t_data (d : Data) : bytes :=
  str "Data(header=" ++ t_header (d_header d) ++ str ", entries=" ++ t_list (map t_entry (d_entries d)) ++ str ")".
Definition t_entities (e : Entities) : bytes :=
  str "Entities(points=" ++ size (points e) ++ str ", curves=" ++ size (curves_e e) ++
  str ", surfaces=" ++ size (surfaces_e e) ++ str ", volumes=" ++ size (volumes_e e) ++ str ")".
Definition t_group (g : PhysicalGroup) : bytes :=
  str "PhysicalGroup(dim=" ++ to_string (pg_dim g) ++ str ", tag=" ++ to_string (pg_tag g) ++
  str ", name=" ++ pg_name g ++ str ")".
Definition t_spec (s : MshSpec) : bytes :=
  str "MshSpec(mesh_format=" ++ t_format (mesh_format s) ++ str ", nodes=" ++ t_nodes (nodes s) ++
  str ", elements=" ++ t_elements (elements s) ++ str ", entities=" ++ t_entities (entities s) ++
  str ", physical_groups=" ++ t_list (map t_group (physical_groups s)) ++
  str ", node_data=" ++ t_list (map t_data (node_data s)) ++
  str ", element_data=" ++ t_list (map t_data (element_data s)) ++
  str ", element_node_data=" ++ t_list (map t_data (element_node_data s)) ++ str ")".

Lemma py_items_some : forall l : list bytes, py_items (map Some l) = Some (joined l).
Proof.
  induction l as [|t l IH]; [reflexivity|]. destruct l as [|u l]; [reflexivity|].
  change (map Some (t :: u :: l)) with (Some t :: map Some (u :: l)).
  change (joined (t :: u :: l)) with (t ++ str ", " ++ joined (u :: l)).
  change (py_items (Some t :: map Some (u :: l))) with
    (pbind (Some t) (fun a => pbind (py_items (map Some (u :: l))) (fun b => Some (a ++ str ", " ++ b)))).
  rewrite IH. reflexivity.
Qed.
Lemma py_items_none : forall l, In None l -> py_items l = None.
Proof.
  induction l as [|x l IH]; intros H; [destruct H|]. destruct l as [|y l].
  - destruct H as [<-|[]]. reflexivity.
  - change (py_items (x :: y :: l)) with
      (pbind x (fun a => pbind (py_items (y :: l)) (fun b => Some (a ++ str ", " ++ b)))).
    destruct H as [->|H]; [reflexivity|]. rewrite (IH H). destruct x; reflexivity.
Qed.

Lemma py_list_map : forall A (f : A -> option bytes) (t : A -> bytes) l, (forall a, In a l -> f a = Some (t a)) ->
  py_list (map f l) = Some (t_list (map t l)).
Proof.
  intros A f t l H. replace (map f l) with (map Some (map t l)).
  - unfold py_list. rewrite py_items_some. reflexivity.
  - rewrite map_map. apply map_ext_in. intros a Ha. symmetry. apply H. exact Ha.
Qed.

Lemma joined_ascii : forall l, Forall (Forall ascii) l -> Forall ascii (joined l).
Proof.
  intros l F. induction F as [|t l Ht F IH]; [constructor|]. destruct l as [|u l]; [exact Ht|].
  change (joined (t :: u :: l)) with (t ++ str ", " ++ joined (u :: l)).
  apply Forall_app. split; [exact Ht|]. apply Forall_app. split; [repeat constructor|exact IH].
Qed.
Lemma list_ascii : forall A (t : A -> bytes) l, (forall a, Forall ascii (t a)) -> Forall ascii (t_list (map t l)).
Proof.
  intros A t l H. unfold t_list. ascii. apply joined_ascii. apply Forall_forall. intros x Hx.
  apply in_map_iff in Hx as (a & <- & _). apply H.
Qed.

Lemma entry_ascii : forall e, Forall ascii (t_entry e).
Proof. intro e. unfold t_entry, size. ascii. Qed.
Lemma header_ascii : forall e, Forall ascii (t_header e).
Proof. intro e. unfold t_header, size. ascii. Qed.
Lemma data_ascii : forall d, Forall ascii (t_data d).
Proof. intro d. unfold t_data. ascii; [apply header_ascii|apply list_ascii; exact entry_ascii]. Qed.

Lemma repr_nodes_some : forall n, repr_nodes n = Some (t_nodes n).
Proof. intro n. apply py_ascii. unfold t_nodes. ascii. Qed.
Lemma repr_elements_some : forall n, repr_elements n = Some (t_elements n).
Proof. intro n. apply py_ascii. unfold t_elements. ascii. Qed.
Lemma repr_entities_some : forall n, repr_entities n = Some (t_entities n).
Proof. intro n. apply py_ascii. unfold t_entities, size. ascii. Qed.
Lemma repr_entry_some : forall n, repr_entry n = Some (t_entry n).
Proof. intro n. apply py_ascii. apply entry_ascii. Qed.
Lemma repr_header_some : forall n, repr_header n = Some (t_header n).
Proof. intro n. apply py_ascii. apply header_ascii. Qed.
Lemma repr_data_some : forall d, repr_data d = Some (t_data d).
Proof.
  intro d. unfold repr_data. rewrite repr_header_some. cbn [pbind].
  rewrite (py_list_map _ repr_entry t_entry) by (intros; apply repr_entry_some). cbn [pbind].
  apply py_ascii. apply data_ascii.
Qed.

(** ** Strings *)

Lemma ok_between : forall a v c b, Forall ascii a -> ascii c -> Forall ascii b -> utf8_ok (a ++ v ++ c :: b) = utf8_ok v.
Proof.
  intros a v c b Ha Hc Hb. rewrite ok_ascii by exact Ha. rewrite (ok_cut (List.length v)) by (auto; lia).
  rewrite (ascii_ok b Hb), andb_true_r. reflexivity.
Qed.

Lemma format_ok : forall f, utf8_ok (t_format f) = utf8_ok (version f).
Proof. intro f. unfold t_format. apply (ok_between (str "MeshFormat(version=") (version f) x2c); [ascii|reflexivity|].
  change (Forall ascii ((str " file_type=") ++ to_string (file_type f) ++ str ", data_size=" ++ to_string (data_size f) ++ str ")")).
  ascii. Qed.
Lemma group_ok : forall g, utf8_ok (t_group g) = utf8_ok (pg_name g).
Proof.
  intro g. unfold t_group. set (a := to_string (pg_dim g)). set (b := to_string (pg_tag g)).
  replace (str "PhysicalGroup(dim=" ++ a ++ str ", tag=" ++ b ++ str ", name=" ++ pg_name g ++ str ")")
    with ((str "PhysicalGroup(dim=" ++ a ++ str ", tag=" ++ b ++ str ", name=") ++ pg_name g ++ x29 :: [])
    by (rewrite <- !app_assoc; reflexivity).
  apply ok_between; [|reflexivity|constructor]. subst a b. ascii.
Qed.

Lemma repr_format_if : forall f, repr_format f = if utf8_ok (version f) then Some (t_format f) else None.
Proof. intro f. rewrite <- format_ok. reflexivity. Qed.
Lemma repr_group_if : forall g, repr_group g = if utf8_ok (pg_name g) then Some (t_group g) else None.
Proof. intro g. rewrite <- group_ok. reflexivity. Qed.

Lemma groups_if : forall l, py_list (map repr_group l) =
  if forallb (fun g => utf8_ok (pg_name g)) l then Some (t_list (map t_group l)) else None.
Proof.
  intro l. destruct (forallb _ l) eqn:E.
  - rewrite forallb_forall in E. apply py_list_map. intros g Hg. rewrite repr_group_if, (E g Hg). reflexivity.
  - unfold py_list. rewrite py_items_none; [reflexivity|]. apply in_map_iff.
    assert (X : exists g, In g l /\ utf8_ok (pg_name g) = false).
    { clear - E. induction l as [|g l IH]; [discriminate|]. cbn [forallb] in E. apply andb_false_iff in E as [E|E].
      - exists g. split; [left; reflexivity|exact E].
      - destruct (IH E) as (h & H1 & H2). exists h. split; [right; exact H1|exact H2]. }
    destruct X as (g & Hg & F). exists g. split; [|exact Hg]. rewrite repr_group_if, F. reflexivity.
Qed.

Lemma utf8_ok_app : forall a b, utf8_ok a = true -> utf8_ok b = true -> utf8_ok (a ++ b) = true.
Proof. intros a b. rewrite !utf8_ok_iff. apply utf8_app. Qed.

Lemma joined_ok : forall l, Forall (fun t => utf8_ok t = true) l -> utf8_ok (joined l) = true.
Proof.
  intros l F. induction F as [|t l Ht F IH]; [reflexivity|]. destruct l as [|u l]; [exact Ht|].
  change (joined (t :: u :: l)) with (t ++ str ", " ++ joined (u :: l)).
  apply utf8_ok_app; [exact Ht|]. apply utf8_ok_app; [reflexivity|exact IH].
Qed.

Lemma list_ok : forall l, Forall (fun t => utf8_ok t = true) l -> utf8_ok (t_list l) = true.
Proof.
  intros l F. unfold t_list. apply utf8_ok_app; [reflexivity|]. apply utf8_ok_app; [|reflexivity]. apply joined_ok. exact F.
Qed.
Lemma nodes_ascii : forall n, Forall ascii (t_nodes n).
Proof. intro n. unfold t_nodes. ascii. Qed.
Lemma elements_ascii : forall n, Forall ascii (t_elements n).
Proof. intro n. unfold t_elements. ascii. Qed.
Lemma entities_ascii : forall n, Forall ascii (t_entities n).
Proof. intro n. unfold t_entities, size. ascii. Qed.

Lemma spec_ok : forall s, utf8_ok (version (mesh_format s)) = true ->
  forallb (fun g => utf8_ok (pg_name g)) (physical_groups s) = true -> utf8_ok (t_spec s) = true.
Proof.
  intros s Hv Hg. unfold t_spec. rewrite <- format_ok in Hv.
  repeat match goal with |- utf8_ok (?a ++ ?b) = true => apply (utf8_ok_app a b) end; try reflexivity; try exact Hv.
  - apply ascii_ok. apply nodes_ascii.
  - apply ascii_ok. apply elements_ascii.
  - apply ascii_ok. apply entities_ascii.
  - apply list_ok.
    apply Forall_forall. intros t Ht. apply in_map_iff in Ht as (g & <- & Hi). rewrite group_ok.
    rewrite forallb_forall in Hg. exact (Hg g Hi).
  - apply ascii_ok. apply list_ascii. exact data_ascii.
  - apply ascii_ok. apply list_ascii. exact data_ascii.
  - apply ascii_ok. apply list_ascii. exact data_ascii.
Qed.

Lemma repr_spec_if : forall s, repr_spec s =
  if utf8_ok (version (mesh_format s)) && forallb (fun g => utf8_ok (pg_name g)) (physical_groups s)
  then Some (t_spec s) else None.
Proof.
  intro s. unfold repr_spec. rewrite repr_format_if. destruct (utf8_ok (version _)) eqn:Hv; [|reflexivity]. cbn [pbind andb].
  rewrite repr_nodes_some, repr_elements_some, repr_entities_some, groups_if. cbn [pbind].
  destruct (forallb _ _) eqn:Hg; [|reflexivity]. cbn [pbind].
  rewrite !(py_list_map _ repr_data t_data) by (intros; apply repr_data_some). cbn [pbind].
  fold (t_spec s). unfold py_str. rewrite (spec_ok s Hv Hg). reflexivity.
Qed.

Theorem repr_utf8 : forall o, (exists t, py_repr o = Some t) <-> Forall utf8 (strings o).
Proof.
  assert (A : forall b, Forall ascii b -> (exists t, py_str b = Some t) <-> Forall utf8 []).
  { intros b F. rewrite (py_ascii b F). split; [constructor|eauto]. }
  intros [f|b|n|b|e|h|e|d|p|e|e|e|e|g|s]; cbn [py_repr strings].
  - rewrite repr_format_if. rewrite Forall_cons_iff, <- utf8_ok_iff.
    destruct (utf8_ok _); split; [constructor; [reflexivity|constructor]|eauto|intros (t & E); discriminate|intros [E _]; discriminate].
  - apply A. unfold size. ascii.
  - apply A. ascii.
  - apply A. ascii.
  - apply A. ascii.
  - apply A. apply header_ascii.
  - apply A. apply entry_ascii.
  - rewrite repr_data_some. split; [constructor|eauto].
  - apply A. unfold size. ascii.
  - apply A. unfold size. ascii.
  - apply A. unfold size. ascii.
  - apply A. unfold size. ascii.
  - apply A. unfold size. ascii.
  - rewrite repr_group_if. rewrite Forall_cons_iff, <- utf8_ok_iff.
    destruct (utf8_ok _); split; [constructor; [reflexivity|constructor]|eauto|intros (t & E); discriminate|intros [E _]; discriminate].
  - rewrite repr_spec_if. rewrite Forall_cons_iff, <- utf8_ok_iff.
    assert (G : forallb (fun g => utf8_ok (pg_name g)) (physical_groups s) = true <-> Forall utf8 (map pg_name (physical_groups s))).
    { rewrite forallb_forall, Forall_forall. split.
      - intros H x Hx. apply in_map_iff in Hx as (g & <- & Hg). apply utf8_ok_iff. exact (H g Hg).
      - intros H g Hg. apply utf8_ok_iff. apply H. apply in_map. exact Hg. }
    rewrite <- G. split.
    + intros (t & E). destruct (_ && _) eqn:B; [|discriminate]. apply andb_true_iff in B. exact B.
    + intros [-> ->]. cbn [andb]. eauto.
Qed.
