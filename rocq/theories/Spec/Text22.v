(** 2.2 files as text, following the MSH 2.2 format description. *)

From Verif Require Export Spec.Words Spec.Files22 Model.IStream Model.Dbl.

(** Words, each followed by whitespace. *)
Inductive laid_out : list bytes -> bytes -> Prop :=
| laid_nil : laid_out [] []
| laid_cons w sep l t : blank sep -> sep <> [] -> laid_out l t ->
    laid_out (w :: l) (w ++ sep ++ t).

(** Word [w] is read as the double [x], when followed by whitespace. *)
Definition denotes (w : bytes) (x : dbl) : Prop :=
  (exists c w', w = c :: w' /\ is_ws c = false) /\
  forall b, match b with c :: _ => is_ws c = true | [] => False end ->
    extract_double (w ++ b) = (x, false, b).

(** ** ASCII *)

(** "tag x y z" *)
Inductive node_words : list node -> list bytes -> Prop :=
| nw_nil : node_words [] []
| nw_cons n l wx wy wz ws : denotes wx (n_x n) -> denotes wy (n_y n) -> denotes wz (n_z n) ->
    node_words l ws -> node_words (n :: l) (show_Z (n_tag n) :: wx :: wy :: wz :: ws).

Definition nodes_ascii (l : list node) (t : bytes) : Prop :=
  exists ws, node_words l ws /\ laid_out (show_Z (zlen l) :: ws) t.

(** "id type number-of-tags tags... nodes..." *)
Definition rec_words (r : el_rec) : list bytes :=
  show_Z (er_id r) :: show_Z (er_type r) :: show_Z (zlen (er_tags r)) ::
  map show_Z (er_tags r) ++ map show_Z (er_nodes r).

Definition elements_ascii (l : list el_rec) (t : bytes) : Prop :=
  laid_out (show_Z (zlen l) :: flat_map rec_words l) t.

(** ** Binary *)

Definition ints (l : list Z) : bytes := List.concat (map (le 4) l).

(** int tag, three doubles *)
Definition node_bytes (n : node) : bytes :=
  le 4 (n_tag n) ++ le 8 (n_x n) ++ le 8 (n_y n) ++ le 8 (n_z n).

(** The count, one newline, the records, whitespace. *)
Definition nodes_binary (l : list node) (t : bytes) : Prop :=
  exists sep, blank sep /\
    t = show_Z (zlen l) ++ [x0a] ++ List.concat (map node_bytes l) ++ sep.

(** id, tags, nodes *)
Definition rec_bytes (r : el_rec) : bytes := le 4 (er_id r) ++ ints (er_tags r) ++ ints (er_nodes r).

(** Elements of one type with as many tags each. *)
Record block22 := { bl_type : Z; bl_ntags : Z; bl_recs : list el_rec }.

Record block22_ok (b : block22) : Prop := {
  blo_type : gmsh_nodes (bl_type b) <> None;
  blo_recs : Forall (fun r => er_type r = bl_type b /\ zlen (er_tags r) = bl_ntags b) (bl_recs b);
  blo_num : zlen (bl_recs b) <= INT_MAX;
  blo_ntags : 0 <= 4 * bl_ntags b <= INT_MAX }.

Definition block22_bytes (b : block22) : bytes :=
  le 4 (bl_type b) ++ le 4 (zlen (bl_recs b)) ++ le 4 (bl_ntags b) ++
  List.concat (map rec_bytes (bl_recs b)).

Definition elements_binary (l : list el_rec) (t : bytes) : Prop :=
  exists bs sep, blank sep /\ l = flat_map bl_recs bs /\
    Forall block22_ok bs /\ Forall (fun b => bl_recs b <> []) bs /\
    t = show_Z (zlen l) ++ [x0a] ++ List.concat (map block22_bytes bs) ++ sep.

(** ** Files *)

Inductive part := NodesPart (l : list node) | ElementsPart (l : list el_rec).

Definition part_nodes (p : part) : list node := match p with NodesPart l => l | _ => [] end.
Definition part_recs (p : part) : list el_rec := match p with ElementsPart l => l | _ => [] end.

(** The node tags and records a section may hold. *)
Definition part_ok (ascii : bool) (p : part) : Prop :=
  match p with
  | NodesPart l => Forall (fun n => size_ok (n_tag n) /\ size_ok (n_x n) /\ size_ok (n_y n) /\
                     size_ok (n_z n) /\ (ascii = false -> n_tag n <= INT_MAX)) l
  | ElementsPart l => Forall (fun r => rec_ok r /\ zlen (er_tags r) <= INT_MAX) l
  end.

Definition part_text (ascii : bool) (p : part) (t : bytes) : Prop :=
  match p with
  | NodesPart l => exists b, (if ascii then nodes_ascii l b else nodes_binary l b) /\
      t = str "$Nodes" ++ [x0a] ++ b ++ str "$EndNodes" ++ [x0a]
  | ElementsPart l => exists b, (if ascii then elements_ascii l b else elements_binary l b) /\
      t = str "$Elements" ++ [x0a] ++ b ++ str "$EndElements" ++ [x0a]
  end.

Definition header_22 (ascii : bool) : bytes :=
  str "$MeshFormat" ++ [x0a] ++
  str (if ascii then "2.2 0 8" else "2.2 1 8") ++ [x0a] ++
  (if ascii then [] else le 4 1 ++ [x0a]) ++
  str "$EndMeshFormat" ++ [x0a].

(** A header and any number of $Nodes and $Elements sections in any order. *)
Definition file_of (ascii : bool) (ps : list part) (b : bytes) : Prop :=
  exists ts, Forall2 (part_text ascii) ps ts /\ b = header_22 ascii ++ List.concat ts.

Definition all_nodes (ps : list part) : list node := flat_map part_nodes ps.
Definition all_recs (ps : list part) : list el_rec := flat_map part_recs ps.

(** Memory for the vectors, [lo] and [hi] being the least and greatest node
    tag, in whose range all referenced tags lie. *)
Record loadable (c : cfg) (ps : list part) (lo hi : Z) : Prop := {
  ld_some : all_nodes ps <> [];
  ld_lo : least SIZE_MAX (map n_tag (all_nodes ps)) lo;
  ld_hi : greatest 0 (map n_tag (all_nodes ps)) hi;
  ld_refs : forall e t, In e (map rec_element (all_recs ps)) -> In t (el_nodes e) -> lo <= t <= hi;
  ld_range : fits c sz_size (hi - lo + 1);
  ld_parts : fits c sz_NodeBlock (zlen ps);
  ld_nodes : Forall (fun p => fits c sz_double (3 * zlen (part_nodes p))) ps;
  ld_blocks : fits c sz_ElementBlock (zlen (all_recs ps));
  ld_recs : Forall (fun r => fits c sz_int (zlen (er_tags r)) /\ fits c sz_int (zlen (er_nodes r))) (all_recs ps) }.

(** Entities created section by section. *)
Inductive entities_from : list part -> Entities -> Entities -> Prop :=
| ef_nil en : entities_from [] en en
| ef_nodes l ps en en' : entities_from ps en en' -> entities_from (NodesPart l :: ps) en en'
| ef_elements l ps en en1 en' : entities_added l en en1 -> entities_from ps en1 en' ->
    entities_from (ElementsPart l :: ps) en en'.

(** The last $Elements section. *)
Fixpoint last_recs (ps : list part) (acc : list el_rec) : list el_rec :=
  match ps with
  | [] => acc
  | NodesPart _ :: ps => last_recs ps acc
  | ElementsPart l :: ps => last_recs ps l
  end.

Definition format_22 (ascii : bool) : MeshFormat :=
  {| version := str "2.2"; file_type := if ascii then 0 else 1; data_size := 8 |}.

(** What such a file is loaded as: the nodes and elements of the file in order,
    cut into runs of one entity; entities; counts and ranges.  In binary files
    num_elements counts the last $Elements section only. *)
Record mesh_of (ascii : bool) (ps : list part) (lo hi : Z) (s : MshSpec) : Prop := {
  mo_format : mesh_format s = format_22 ascii;
  mo_nodes : mesh_nodes (nodes s) = all_nodes ps;
  mo_num_nodes : n_num_nodes (nodes s) = to_size (zlen (all_nodes ps));
  mo_min : n_min (nodes s) = lo;
  mo_max : n_max (nodes s) = hi;
  mo_consistent : consistent_22 s;
  mo_node_full : Forall (fun b => nb_tags b <> []) (n_blocks (nodes s));
  mo_node_runs : neighbours_differ node_key (n_blocks (nodes s));
  mo_class : forall b t, In b (n_blocks (nodes s)) -> In t (nb_tags b) ->
               classified (map rec_element (all_recs ps)) t (node_key b);
  mo_elements : mesh_elements (elements s) = map rec_element (all_recs ps);
  mo_element_full : Forall (fun b => 0 < eb_num b) (e_blocks (elements s));
  mo_element_runs : neighbours_differ element_key (e_blocks (elements s));
  mo_num_elements : e_num_elements (elements s) =
                      if ascii then to_size (zlen (all_recs ps)) else zlen (last_recs ps []);
  mo_ids : all_recs ps <> [] -> Forall (fun r => 0 <= er_id r) (all_recs ps) ->
             least SIZE_MAX (map er_id (all_recs ps)) (e_min (elements s)) /\
             greatest 0 (map er_id (all_recs ps)) (e_max (elements s));
  mo_entities : entities_from ps (entities spec_default) (entities s);
  mo_groups : physical_groups s = [];
  mo_data : node_data s = [] /\ element_data s = [] /\ element_node_data s = [];
  mo_splines : curves s = [] /\ patches s = [] }.
