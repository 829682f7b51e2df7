(** save_msh as a list of sections. *)

From Verif Require Export Spec.Layout Model.Save Proofs.BytesP Proofs.WriteP Proofs.SaveP.
Ltac Zify.zify_post_hook ::= idtac.

Definition emit (p : bytes * W) : W :=
  out (opening (fst p)) +++ snd p +++ out (str "$End" ++ fst p ++ nl).

Section Secs.
Context (c : cfg) (s : MshSpec).
Let v := version (mesh_format s).
Let ascii := file_type (mesh_format s) =? 0.

Definition format_body : W :=
  out (v ++ sp ++ show_Z (file_type (mesh_format s)) ++ sp ++ show_Z (data_size (mesh_format s)) ++ endl) +++
  (if file_type (mesh_format s) =? 1 then out (le 4 1) else wret).
Definition groups_body : W :=
  out (show_Z (zlen (physical_groups s)) ++ endl) +++
  wfor (physical_groups s) (fun g =>
    out (show_Z (pg_dim g) ++ sp ++ show_Z (pg_tag g) ++ sp ++ quoted (pg_name g) ++ endl)).
Definition entities_body : W :=
  if bytes_eqb v v41s then
    if ascii then v41_save_entities_ascii (entities s) else v41_save_entities_binary (entities s)
  else ([], Throw (version_unsupported v)).
Definition nodes_body : W :=
  if bytes_eqb v v41s then
    if ascii then v41_save_nodes_ascii (nodes s) else v41_save_nodes_binary (nodes s)
  else if bytes_eqb v v22s then
    if ascii then v22_save_nodes_ascii (nodes s) else v22_save_nodes_binary (nodes s)
  else ([], Throw (version_unsupported v)).
Definition elements_body : W :=
  if bytes_eqb v v41s then
    if ascii then v41_save_elements_ascii (elements s) else v41_save_elements_binary (elements s)
  else if bytes_eqb v v22s then
    if ascii then v22_save_elements_ascii (elements s) else v22_save_elements_binary (elements s)
  else ([], Throw (version_unsupported v)).
Definition data_secs (name : bytes) (pn : bool) (ds : list Data) : list (bytes * W) :=
  map (fun d => (name, save_data v (0 <? file_type (mesh_format s)) pn d)) ds.
Definition curves_body : W :=
  out (show_Z (zlen (curves s)) ++ endl) +++ wfor (curves s) (save_curve c ascii).
Definition patches_body : W :=
  out (show_Z (zlen (patches s)) ++ endl) +++ wfor (patches s) (save_patch c ascii).

Definition secs : list (bytes * W) :=
  [(str "MeshFormat", format_body)] ++
  when (some (physical_groups s)) [(str "PhysicalNames", groups_body)] ++
  when (has_entities s && negb (bytes_eqb v (str "2.2"))) [(str "Entities", entities_body)] ++
  when (0 <? n_num_nodes (nodes s)) [(str "Nodes", nodes_body)] ++
  when (0 <? e_num_elements (elements s)) [(str "Elements", elements_body)] ++
  data_secs (str "NodeData") false (node_data s) ++
  data_secs (str "ElementData") false (element_data s) ++
  data_secs (str "ElementNodeData") true (element_node_data s) ++
  when (nanospline c)
    ([(str "NanoSplineFormat", out (ns_version s ++ endl))] ++
     when (some (curves s)) [(str "Curves", curves_body)] ++
     when (some (patches s)) [(str "Patches", patches_body)]).
End Secs.

Lemma wseq_assoc : forall a b d, (a +++ b) +++ d = a +++ (b +++ d).
Proof.
  intros [x [[]| | | |]] [y [[]| | | |]] d; cbn; try reflexivity. rewrite app_assoc. reflexivity.
Qed.

Lemma wseq_ret_l : forall a, wret +++ a = a.
Proof. intros [x r]. reflexivity. Qed.

Lemma wseq_ret_r : forall a, a +++ wret = a.
Proof. intros [x [[]| | | |]]; cbn; rewrite ?app_nil_r; reflexivity. Qed.

Lemma wfor_app : forall A (f : A -> W) a b, wfor (a ++ b) f = wfor a f +++ wfor b f.
Proof.
  intros A f a b. induction a as [|x a IH]; cbn [app wfor]; [symmetry; apply wseq_ret_l|].
  rewrite IH. symmetry. apply wseq_assoc.
Qed.

Lemma wfor_when : forall A (f : A -> W) b l, wfor (when b l) f = if b then wfor l f else wret.
Proof. intros A f [] l; reflexivity. Qed.

Lemma wfor_one : forall A (f : A -> W) x, wfor [x] f = f x.
Proof. intros. cbn [wfor]. apply wseq_ret_r. Qed.

Lemma some_zlen : forall A (l : list A), (0 <? zlen l) = some l.
Proof.
  intros A [|x l]; [reflexivity|]. cbn [some]. apply Z.ltb_lt. unfold zlen. cbn [List.length]. lia.
Qed.

Lemma none_zlen : forall A (l : list A), (zlen l =? 0) = negb (some l).
Proof.
  intros A [|x l]; [reflexivity|]. cbn [some negb]. apply Z.eqb_neq. unfold zlen. cbn [List.length]. lia.
Qed.

Lemma entities_some : forall s, negb (entities_empty (entities s)) = has_entities s.
Proof.
  intro s. unfold entities_empty, has_entities. rewrite !none_zlen, <- !negb_orb, negb_involutive. reflexivity.
Qed.

Lemma data_emit : forall name pn s ds,
  (if 0 <? zlen ds then save_data_sections name pn s ds else wret) = wfor (data_secs s name pn ds) emit.
Proof.
  intros name pn s ds. unfold data_secs. rewrite wfor_map, some_zlen. destruct ds as [|d ds]; reflexivity.
Qed.

Lemma save_sections : forall c s, save_msh c s = wfor (secs c s) emit.
Proof.
  intros c s. unfold secs. rewrite !wfor_app, !wfor_when, !wfor_one, <- !data_emit.
  unfold save_msh. rewrite !some_zlen, entities_some.
  f_equal. { unfold save_mesh_format, emit, format_body. cbn [fst snd]. rewrite !wseq_assoc. reflexivity. }
  f_equal. { unfold save_physical_groups, emit, groups_body. cbn [fst snd]. rewrite !wseq_assoc. reflexivity. }
  f_equal. { unfold save_entities, emit, entities_body. cbn [fst snd]. cbv zeta.
    change v22s with (str "2.2"). destruct (has_entities s), (bytes_eqb (version (mesh_format s)) (str "2.2")); reflexivity. }
  do 5 f_equal.
  rewrite !wfor_app, !wfor_when, !wfor_one. destruct (nanospline c); [|reflexivity].
  f_equal. f_equal.
  - unfold save_curves, emit, curves_body. cbn [fst snd]. rewrite !wseq_assoc. reflexivity.
  - unfold save_patches, emit, patches_body. cbn [fst snd]. rewrite !wseq_assoc. reflexivity.
Qed.

Lemma when_map : forall A B (f : A -> B) b l, map f (when b l) = when b (map f l).
Proof. intros A B f [] l; reflexivity. Qed.

Lemma secs_names : forall c s, map fst (secs c s) = section_names c s.
Proof.
  intros c s. unfold secs, section_names, data_secs.
  rewrite !map_app, !when_map, !map_app, !when_map, !map_map. reflexivity.
Qed.

(** ** Complete output *)

Lemma seq_done : forall a b, snd (a +++ b) = Ok tt -> snd a = Ok tt /\ snd b = Ok tt /\ fst (a +++ b) = fst a ++ fst b.
Proof. intros [x [[]| | | |]] [y r]; cbn; intro H; try discriminate. auto. Qed.

Lemma for_done : forall A (f : A -> W) l, snd (wfor l f) = Ok tt ->
  Forall (fun x => snd (f x) = Ok tt) l /\ fst (wfor l f) = List.concat (map (fun x => fst (f x)) l).
Proof.
  intros A f l. induction l as [|x l IH]; cbn [wfor]; intro H; [split; [constructor|reflexivity]|].
  apply seq_done in H. destruct H as (H1 & H2 & ->). destruct (IH H2) as [IH1 ->]. split; [constructor; auto|]. reflexivity.
Qed.

Lemma emit_done : forall p, snd (emit p) = Ok tt -> snd (snd p) = Ok tt /\ fst (emit p) = frame (fst p) (fst (snd p)).
Proof.
  intros [n [b r]] H. unfold emit in *. cbn [fst snd] in *.
  apply seq_done in H. destruct H as (_ & H & ->). apply seq_done in H. destruct H as (H & _ & ->).
  split; [exact H|]. reflexivity.
Qed.

(** ** Incomplete output *)

Lemma seq_not : forall a b, snd (a +++ b) <> Ok tt ->
  (snd a <> Ok tt /\ fst (a +++ b) = fst a /\ snd (a +++ b) = snd a) \/
  (snd a = Ok tt /\ snd b <> Ok tt /\ fst (a +++ b) = fst a ++ fst b /\ snd (a +++ b) = snd b).
Proof.
  intros [x [[]| | | |]] [y r]; cbn; intro H; [right|left..]; repeat split; auto; discriminate.
Qed.

Lemma for_not : forall A (f : A -> W) l, snd (wfor l f) <> Ok tt ->
  exists a x b, l = a ++ x :: b /\ Forall (fun x => snd (f x) = Ok tt) a /\ snd (f x) <> Ok tt /\
    fst (wfor l f) = List.concat (map (fun x => fst (f x)) a) ++ fst (f x) /\ snd (wfor l f) = snd (f x).
Proof.
  intros A f l. induction l as [|y l IH]; cbn [wfor]; intro H; [cbn in H; congruence|].
  apply seq_not in H. destruct H as [(H1 & H2 & H3)|(H1 & H2 & H3 & H4)].
  - exists [], y, l. repeat (split; [auto|]). auto.
  - destruct (IH H2) as (a & x & b & E & Fa & Hx & E1 & E2). exists (y :: a), x, b.
    rewrite E. split; [reflexivity|]. split; [constructor; auto|]. split; [exact Hx|].
    split; [|congruence]. rewrite <- E, H3, E1. cbn [map List.concat]. rewrite app_assoc. reflexivity.
Qed.

Lemma emit_not : forall p, snd (emit p) <> Ok tt ->
  snd (snd p) <> Ok tt /\ fst (emit p) = opening (fst p) ++ fst (snd p) /\ snd (emit p) = snd (snd p).
Proof.
  intros [n [b r]] H. unfold emit in *. cbn [fst snd] in *.
  apply seq_not in H. destruct H as [(H & _)|(_ & H & -> & ->)]; [destruct H; reflexivity|].
  apply seq_not in H. destruct H as [(H & -> & ->)|(_ & H & _)]; [|destruct H; reflexivity].
  cbn [fst snd]. auto.
Qed.

(** ** Bodies as functions of the content *)

Definition ref_cfg : cfg := {| ndebug := true; nanospline := true; mem := 0 |}.

Definition ref_spec (v : bytes) (ft : Z) (n : Nodes) (e : Elements) (en : Entities)
  (gs : list PhysicalGroup) (ks : list Curve) (ps : list Patch) : MshSpec :=
  {| mesh_format := {| version := v; file_type := ft; data_size := 8 |}; nodes := n; elements := e;
     entities := en; physical_groups := gs; node_data := []; element_data := []; element_node_data := [];
     ns_version := []; curves := ks; patches := ps |}.

Definition n0 : Nodes := nodes (stripped (ref_spec [] 0 {| n_num_blocks := 0; n_num_nodes := 0; n_min := 0; n_max := 0; n_blocks := [] |}
  {| e_num_blocks := 0; e_num_elements := 0; e_min := 0; e_max := 0; e_blocks := [] |}
  {| points := []; curves_e := []; surfaces_e := []; volumes_e := [] |} [] [] [])).
Definition e0 : Elements := {| e_num_blocks := 0; e_num_elements := 0; e_min := 0; e_max := 0; e_blocks := [] |}.
Definition en0 : Entities := {| points := []; curves_e := []; surfaces_e := []; volumes_e := [] |}.
Definition ft (ascii : bool) : Z := if ascii then 0 else 1.

Definition the_bodies : bodies := {|
  b_format := fun f => fst (format_body {| mesh_format := f; nodes := n0; elements := e0; entities := en0;
     physical_groups := []; node_data := []; element_data := []; element_node_data := []; ns_version := [];
     curves := []; patches := [] |});
  b_groups := fun gs => fst (groups_body (ref_spec [] 0 n0 e0 en0 gs [] []));
  b_entities := fun a en => fst (entities_body (ref_spec (str "4.1") (ft a) n0 e0 en [] [] []));
  b_nodes := fun v a n => fst (nodes_body (ref_spec v (ft a) n e0 en0 [] [] []));
  b_elements := fun v a e => fst (elements_body (ref_spec v (ft a) n0 e en0 [] [] []));
  b_data := fun b pn d => fst (save_data (str "4.1") b pn d);
  b_nanospline := fun v => v ++ endl;
  b_curves := fun a ks => fst (curves_body ref_cfg (ref_spec [] (ft a) n0 e0 en0 [] ks []));
  b_patches := fun a ps => fst (patches_body ref_cfg (ref_spec [] (ft a) n0 e0 en0 [] [] ps)) |}.

Lemma ft_ascii : forall a, (ft a =? 0) = a.
Proof. intros []; reflexivity. Qed.

Lemma wassert_ref : forall c b w, snd (wassert c b +++ w) = Ok tt -> wassert c b +++ w = wassert ref_cfg b +++ w.
Proof. intros c b w H. unfold wassert in *. cbn [ndebug ref_cfg]. destruct (ndebug c), b; try reflexivity. discriminate H. Qed.

Lemma curve_ref : forall c a k, snd (save_curve c a k) = Ok tt -> save_curve c a k = save_curve ref_cfg a k.
Proof.
  intros c a k H. unfold save_curve in *. cbv zeta in *. apply seq_done in H. destruct H as (_ & H & _).
  rewrite (wassert_ref _ _ _ H). reflexivity.
Qed.

Lemma patch_ref : forall c a k, snd (save_patch c a k) = Ok tt -> save_patch c a k = save_patch ref_cfg a k.
Proof.
  intros c a k H. unfold save_patch in *. cbv zeta in *. apply seq_done in H. destruct H as (_ & H & _).
  rewrite (wassert_ref _ _ _ H). reflexivity.
Qed.

Lemma for_ref : forall A (f g : A -> W) l, (forall x, snd (f x) = Ok tt -> f x = g x) ->
  snd (wfor l f) = Ok tt -> wfor l f = wfor l g.
Proof.
  intros A f g l H E. apply for_done in E. destruct E as [F _]. induction F as [|x l Hx F IH]; [reflexivity|].
  cbn [wfor]. rewrite (H _ Hx), IH. reflexivity.
Qed.

Lemma when_split : forall A (P : A -> Prop) b x (y : A), (b = true -> P x -> x = y) -> Forall P (when b [x]) ->
  when b [x] = when b [y].
Proof.
  intros A P [] x y H F; cbn [when] in *; [|reflexivity]. inversion F; subst. f_equal. auto.
Qed.

Lemma bodies_done : forall c s, Forall (fun p : bytes * W => snd (snd p) = Ok tt) (secs c s) ->
  map (fun p => fst (snd p)) (secs c s) = section_bodies the_bodies c s.
Proof.
  intros c s F. unfold secs, section_bodies, data_secs in *. cbv zeta.
  rewrite !map_app, !when_map, !map_app, !when_map, !map_map.
  rewrite !Forall_app in F. destruct F as (F1 & F2 & F3 & F4 & F5 & F6 & F7 & F8 & F9).
  assert (WW : forall b x (p : bytes * W) y, p = (x, y) -> Forall (fun p : bytes * W => snd (snd p) = Ok tt) (when b [p]) ->
     b = true -> snd y = Ok tt).
  { intros b x p y -> F ->. cbn [when] in F. inversion F; subst. assumption. }
  assert (D : forall v b pn d, snd (save_data v b pn d) = Ok tt -> fst (save_data v b pn d) = fst (save_data (str "4.1") b pn d)).
  { intros v b pn d H. unfold save_data in *. destruct b; [|reflexivity].
    destruct (bytes_eqb v v41s); [reflexivity|]. destruct (bytes_eqb v v22s); [reflexivity|].
    apply seq_done in H. destruct H as (_ & H & _). discriminate H. }
  assert (DD : forall name pn ds, Forall (fun p : bytes * W => snd (snd p) = Ok tt)
      (map (fun d => (name, save_data (version (mesh_format s)) (0 <? file_type (mesh_format s)) pn d)) ds) ->
    map (fun d => fst (save_data (version (mesh_format s)) (0 <? file_type (mesh_format s)) pn d)) ds =
    map (b_data the_bodies (0 <? file_type (mesh_format s)) pn) ds).
  { intros name pn ds H. rewrite Forall_map in H. apply map_ext_Forall. eapply Forall_impl; [|exact H].
    intros d Hd. cbn [snd] in Hd. apply D. exact Hd. }
  f_equal. f_equal.
  f_equal.
  { destruct (has_entities s && negb (bytes_eqb (version (mesh_format s)) (str "2.2")))%bool eqn:E; [|reflexivity].
    pose proof (WW _ _ _ _ eq_refl F3 eq_refl) as X. cbn [when map fst snd]. f_equal. cbn [the_bodies b_entities].
    unfold entities_body in X |- *. cbn [ref_spec mesh_format version file_type entities]. rewrite ft_ascii.
    destruct (bytes_eqb (version (mesh_format s)) v41s); [reflexivity|discriminate X]. }
  f_equal.
  { destruct (0 <? n_num_nodes (nodes s)); [|reflexivity]. cbn [when map fst snd]. f_equal. cbn [the_bodies b_nodes].
    unfold nodes_body. cbn [ref_spec mesh_format version file_type nodes]. rewrite ft_ascii. reflexivity. }
  f_equal.
  { destruct (0 <? e_num_elements (elements s)); [|reflexivity]. cbn [when map fst snd]. f_equal. cbn [the_bodies b_elements].
    unfold elements_body. cbn [ref_spec mesh_format version file_type elements]. rewrite ft_ascii. reflexivity. }
  f_equal; [apply (DD (str "NodeData")), F6|].
  f_equal; [apply (DD (str "ElementData")), F7|].
  f_equal; [apply (DD (str "ElementNodeData")), F8|].
  destruct (nanospline c); [|reflexivity]. cbn [when] in *. rewrite !Forall_app in F9. destruct F9 as (_ & G1 & G2).
  f_equal. f_equal.
  - destruct (some (curves s)); [|reflexivity]. pose proof (WW _ _ _ _ eq_refl G1 eq_refl) as X.
    cbn [when map fst snd]. f_equal. cbn [the_bodies b_curves]. unfold curves_body in X |- *.
    cbn [ref_spec mesh_format version file_type curves]. rewrite ft_ascii.
    apply seq_done in X. destruct X as (_ & X & _). rewrite (for_ref _ _ _ _ (curve_ref c _) X). reflexivity.
  - destruct (some (patches s)); [|reflexivity]. pose proof (WW _ _ _ _ eq_refl G2 eq_refl) as X.
    cbn [when map fst snd]. f_equal. cbn [the_bodies b_patches]. unfold patches_body in X |- *.
    cbn [ref_spec mesh_format version file_type patches]. rewrite ft_ascii.
    apply seq_done in X. destruct X as (_ & X & _). rewrite (for_ref _ _ _ _ (patch_ref c _) X). reflexivity.
Qed.

Lemma frames_secs : forall l : list (bytes * W), Forall (fun p => snd (emit p) = Ok tt) l ->
  List.concat (map (fun p => fst (emit p)) l) = frames (map fst l) (map (fun p => fst (snd p)) l).
Proof.
  intros l H. unfold frames. induction H as [|p l Hp H IH]; [reflexivity|].
  cbn [map combine List.concat fst snd]. rewrite IH. f_equal. apply emit_done. exact Hp.
Qed.

Lemma save_layout : forall c s, snd (save_msh c s) = Ok tt ->
  fst (save_msh c s) = frames (section_names c s) (section_bodies the_bodies c s).
Proof.
  intros c s H. rewrite save_sections in *. apply for_done in H. destruct H as (F & ->).
  rewrite frames_secs by exact F. rewrite secs_names, bodies_done; [reflexivity|].
  eapply Forall_impl; [|exact F]. intros p Hp. apply emit_done. exact Hp.
Qed.

Lemma save_broken : forall c s, snd (save_msh c s) <> Ok tt ->
  exists a x r bs part, section_names c s = a ++ x :: r /\ List.length bs = List.length a /\
    fst (save_msh c s) = frames a bs ++ opening x ++ part.
Proof.
  intros c s H. rewrite save_sections in *. apply for_not in H.
  destruct H as (a & x & b & E & Fa & Hx & E1 & E2). apply emit_not in Hx. destruct Hx as (Hx & E3 & E4).
  exists (map fst a), (fst x), (map fst b), (map (fun p => fst (snd p)) a), (fst (snd x)).
  split; [rewrite <- secs_names, E, map_app; reflexivity|]. split; [rewrite !map_length; reflexivity|].
  rewrite E1, frames_secs, E3 by exact Fa. reflexivity.
Qed.

(** ** Unsupported versions *)

Definition foreign (s : MshSpec) : Prop := version (mesh_format s) <> str "4.1" /\ version (mesh_format s) <> str "2.2".

Lemma foreign_eqb : forall s, foreign s ->
  bytes_eqb (version (mesh_format s)) v41s = false /\ bytes_eqb (version (mesh_format s)) v22s = false.
Proof. intros s [H1 H2]. split; apply bytes_eqb_neq; assumption. Qed.

Lemma wseq_fst : forall a b x, a = (x, Ok tt) -> a +++ b = (x ++ fst b, snd b).
Proof. intros a b x ->. reflexivity. Qed.

Definition front (s : MshSpec) : list (bytes * W) :=
  [(str "MeshFormat", format_body s)] ++ when (some (physical_groups s)) [(str "PhysicalNames", groups_body s)].

Lemma stripped_save : forall c s, nanospline c = false -> save_msh c (stripped s) = wfor (front s) emit.
Proof.
  intros c s H. rewrite save_sections. unfold secs, front. rewrite H. cbn [when stripped nodes elements n_num_nodes
    e_num_elements node_data element_data element_node_data data_secs map has_entities entities points curves_e
    surfaces_e volumes_e some orb andb Z.ltb Z.compare app]. rewrite !app_nil_r. reflexivity.
Qed.

Lemma front_ok : forall c s, nanospline c = false -> wfor (front s) emit = (fst (save_msh c (stripped s)), Ok tt).
Proof.
  intros c s H. rewrite (stripped_save c s H). rewrite (surjective_pairing (wfor (front s) emit)) at 1. f_equal.
  assert (E : ends False (wfor (front s) emit)).
  { apply ends_for. intros p Hp. unfold emit. apply ends_seq; [apply ends_out|]. apply ends_seq; [|apply ends_out].
    unfold front in Hp. apply in_app_or in Hp. destruct Hp as [[<-|[]]|Hp].
    - cbn [snd]. unfold format_body. destruct (_ =? 1); ends_tac.
    - destruct (some (physical_groups s)); [destruct Hp as [<-|[]]|destruct Hp]. cbn [snd]. unfold groups_body. ends_tac. }
  destruct E as [E|([] & _)]. exact E.
Qed.

Lemma secs_front : forall c s, secs c s = front s ++
  when (has_entities s && negb (bytes_eqb (version (mesh_format s)) (str "2.2"))) [(str "Entities", entities_body s)] ++
  when (0 <? n_num_nodes (nodes s)) [(str "Nodes", nodes_body s)] ++
  when (0 <? e_num_elements (elements s)) [(str "Elements", elements_body s)] ++
  data_secs s (str "NodeData") false (node_data s) ++
  data_secs s (str "ElementData") false (element_data s) ++
  data_secs s (str "ElementNodeData") true (element_node_data s) ++
  when (nanospline c)
    ([(str "NanoSplineFormat", out (ns_version s ++ endl))] ++
     when (some (curves s)) [(str "Curves", curves_body c s)] ++
     when (some (patches s)) [(str "Patches", patches_body c s)]).
Proof. intros c s. unfold secs, front. rewrite <- !app_assoc. reflexivity. Qed.

Lemma first_throw : forall c c0 s x r e, nanospline c0 = false -> secs c s = front s ++ x :: r ->
  snd (snd x) = Throw e -> save_msh c s = (fst (save_msh c0 (stripped s)) ++ opening (fst x) ++ fst (snd x), Throw e).
Proof.
  intros c c0 s [n [b o]] r e H E T. cbn [fst snd] in *. subst o.
  rewrite save_sections, E, wfor_app, (front_ok c0 s H).
  cbn [wfor]. unfold emit. cbn [fst snd wseq out]. reflexivity.
Qed.
