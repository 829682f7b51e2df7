(** The nodes and element records of 2.2 files. *)

From Verif Require Export Spec.Mesh.

(** One element as it stands in a 2.2 file. *)
Record el_rec := { er_id : Z; er_type : Z; er_tags : list Z; er_nodes : list Z }.

Record rec_ok (r : el_rec) : Prop := {
  ro_id : int_ok (er_id r);
  ro_type : gmsh_nodes (er_type r) = Some (zlen (er_nodes r));
  ro_tags : Forall int_ok (er_tags r);
  ro_nodes : Forall int_ok (er_nodes r) }.

(** Elementary tag: the second tag, or the only one, or 1. *)
Definition rec_entity (r : el_rec) : Z :=
  match er_tags r with
  | _ :: t :: _ => t
  | [t] => t
  | [] => 1
  end.
Definition rec_dim (r : el_rec) : Z :=
  match gmsh_dim (er_type r) with Some d => d | None => 0 end.

(** The element described; signed numbers become size_t. *)
Definition rec_element (r : el_rec) : element :=
  {| el_dim := rec_dim r; el_ent := rec_entity r; el_type := er_type r;
     el_tag := to_size (er_id r); el_nodes := map to_size (er_nodes r) |}.

(** Some record of dimension [d] has elementary tag [t] and physical tag [p]. *)
Definition tagged (recs : list el_rec) (d t p : Z) : Prop :=
  exists r l, In r recs /\ rec_dim r = d /\ er_tags r = p :: t :: l.

Fixpoint increasing (l : list Z) : Prop :=
  match l with
  | x :: (y :: _) as r => x < y /\ increasing r
  | _ => True
  end.

(** [l] lists entity tags with their physical tags, for dimension [d]. *)
Record entity_table (recs : list el_rec) (d : Z) (l : list (Z * list Z)) : Prop := {
  et_tags : increasing (map fst l);
  et_phys : forall t ps, In (t, ps) l -> increasing ps /\ ps <> [];
  et_iff : forall t p, (exists ps, In (t, ps) l /\ In p ps) <-> tagged recs d t p }.

Definition point_of (tp : Z * list Z) : PointEntity :=
  {| pe_tag := fst tp; pe_x := 0; pe_y := 0; pe_z := 0; pe_phys := snd tp |}.
Definition entity_of (tp : Z * list Z) : Entity :=
  {| en_tag := fst tp; en_min_x := 0; en_min_y := 0; en_min_z := 0;
     en_max_x := 0; en_max_y := 0; en_max_z := 0; en_phys := snd tp; en_bnd := [] |}.

(** [en'] is [en] followed by the entities of the records. *)
Definition entities_added (recs : list el_rec) (en en' : Entities) : Prop :=
  exists l0 l1 l2 l3,
    entity_table recs 0 l0 /\ entity_table recs 1 l1 /\
    entity_table recs 2 l2 /\ entity_table recs 3 l3 /\
    points en' = points en ++ map point_of l0 /\
    curves_e en' = curves_e en ++ map entity_of l1 /\
    surfaces_e en' = surfaces_e en ++ map entity_of l2 /\
    volumes_e en' = volumes_e en ++ map entity_of l3.

(** Least and greatest of [init] and the list. *)
Definition least (init : Z) (l : list Z) (m : Z) : Prop :=
  (m = init \/ In m l) /\ m <= init /\ Forall (fun x => m <= x) l.
Definition greatest (init : Z) (l : list Z) (m : Z) : Prop :=
  (m = init \/ In m l) /\ init <= m /\ Forall (fun x => x <= m) l.

(** What load_nodes works on: the counts of an empty mesh are reset. *)
Definition prior_nodes (n : Nodes) : Nodes :=
  match n_blocks n with
  | [] => {| n_num_blocks := n_num_blocks n; n_num_nodes := 0;
             n_min := SIZE_MAX; n_max := 0; n_blocks := [] |}
  | _ => n
  end.

(** A 2.2 $Nodes section with nodes [rows] was read on top of [n]. *)
Record nodes_appended (n n' : Nodes) (rows : list node) : Prop := {
  na_block : exists b, n_blocks n' = n_blocks n ++ [b] /\ node_block_22 b /\
               nb_dim b = 0 /\ nb_tag b = 0 /\ block_nodes b = rows /\
               zlen (nb_data b) <= PTRDIFF_MAX / sz_double;
  na_num_blocks : n_num_blocks n' = to_size (n_num_blocks n + 1);
  na_num_nodes : n_num_nodes n' = to_size (n_num_nodes n + zlen rows);
  na_min : least (n_min n) (map n_tag rows) (n_min n');
  na_max : greatest (n_max n) (map n_tag rows) (n_max n');
  na_fits : zlen (n_blocks n') <= PTRDIFF_MAX / sz_NodeBlock }.

Definition prior_elements (e : Elements) : Elements :=
  match e_blocks e with
  | [] => {| e_num_blocks := e_num_blocks e; e_num_elements := e_num_elements e;
             e_min := SIZE_MAX; e_max := 0; e_blocks := [] |}
  | _ => e
  end.

(** A 2.2 $Elements section with records [recs] was read on top of [e]; every
    element is a block of its own until the regrouping. *)
Record elements_appended (c : cfg) (e e' : Elements) (recs : list el_rec) : Prop := {
  ea_recs : Forall rec_ok recs;
  ea_blocks : exists bs, e_blocks e' = e_blocks e ++ bs /\ zlen bs = zlen recs /\
                Forall element_block_22 bs /\ Forall (fun b => eb_num b = 1) bs /\
                flat_map block_elements bs = map rec_element recs;
  ea_fits : recs = [] \/ fits c sz_ElementBlock (zlen (e_blocks e')) }.
