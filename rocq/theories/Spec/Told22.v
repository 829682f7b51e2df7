(** What a 2.2 file says about nodes and elements, however it is laid out. *)

From Verif Require Export Spec.Told Spec.Text22 Spec.Any22.

(** "tag x y z" *)
Definition node22_words (n : node) : list (bytes -> bytes -> Prop) :=
  [size_written (n_tag n); real_written (n_x n); real_written (n_y n); real_written (n_z n)].
(** "id type number-of-tags tags... nodes..." *)
Definition rec22_words (r : el_rec) : list (bytes -> bytes -> Prop) :=
  int_written (er_id r) :: int_written (er_type r) :: int_written (zlen (er_tags r)) ::
  map int_written (er_tags r) ++ map int_written (er_nodes r).

(** A count in text, at most one character of whitespace, and the bytes [v]. *)
Definition count_then (n : Z) (v t r : bytes) : Prop :=
  exists h u, t = h ++ u ++ v /\ in_words [size_written n] h (u ++ v ++ r) /\ maybe_gap u.

(** In binary files node tags are ints. *)
Definition int_tag (n : node) : Prop := exists z, int_ok z /\ n_tag n = to_size z.
Definition nodes22 (ascii : bool) (l : list node) (t r : bytes) : Prop :=
  if ascii then in_words (size_written (zlen l) :: flat_map node22_words l) t r
  else count_then (zlen l) (List.concat (map node_bytes l)) t r /\ Forall int_tag l.

Record block22_of (b : block22) : Prop := {
  bo_recs : Forall (fun r => er_type r = bl_type b /\ zlen (er_tags r) = bl_ntags b) (bl_recs b);
  bo_num : zlen (bl_recs b) <= INT_MAX;
  bo_ntags : 0 <= bl_ntags b <= INT_MAX }.
Definition elements22 (ascii : bool) (l : list el_rec) (t r : bytes) : Prop :=
  if ascii then in_words (size_written (zlen l) :: flat_map rec22_words l) t r
  else exists bs, l = flat_map bl_recs bs /\ Forall block22_of bs /\
    count_then (zlen l) (List.concat (map block22_bytes bs)) t r.

Definition part_says (ascii : bool) (p : part) (t r : bytes) : Prop :=
  match p with
  | NodesPart l => nodes22 ascii l t r
  | ElementsPart l => Forall rec_ok l /\ elements22 ascii l t r
  end.

(** ** Sections at whose end the file is cut off; [t] is all there is of it *)

(** Binary nodes, the last without some of its coordinates' bytes: they are zero. *)
Definition nodes22_cut (l : list node) (t : bytes) : Prop :=
  l = [] \/
  exists l1 x v, l = l1 ++ [x] /\ Forall int_tag l /\ (List.length v < 24)%nat /\
    count_then (zlen l) (List.concat (map node_bytes l1) ++ le 4 (n_tag x) ++ v) t [] /\
    le 8 (n_x x) ++ le 8 (n_y x) ++ le 8 (n_z x) = v ++ repeat x00 (24 - List.length v).

(** Some elements, then one element as often as the count still demands. *)
Definition elements22_cut (ascii : bool) (l : list el_rec) (t : bytes) : Prop :=
  l = [] \/
  if ascii then exists l1 x k t1 t2, l = l1 ++ repeat x (S k) /\ t = t1 ++ t2 /\
    in_words (size_written (zlen l) :: flat_map rec22_words l1) t1 t2
  else exists bs ty nt l1 x k v, l = flat_map bl_recs bs ++ l1 ++ repeat x (S k) /\ Forall block22_of bs /\
    block22_of {| bl_type := ty; bl_ntags := nt; bl_recs := l1 ++ repeat x (S k) |} /\
    (List.length v < List.length (rec_bytes x))%nat /\
    count_then (zlen l) (List.concat (map block22_bytes bs) ++
      le 4 ty ++ le 4 (zlen (l1 ++ repeat x (S k))) ++ le 4 nt ++ List.concat (map rec_bytes l1) ++ v) t [].

Definition part_cut (ascii : bool) (p : part) (t : bytes) : Prop :=
  match p with
  | NodesPart l => ascii = false /\ nodes22_cut l t
  | ElementsPart l => Forall rec_ok l /\ elements22_cut ascii l t
  end.

(** ** Files *)

(** [parts_in b ps r]: [b] has the sections [ps], in this order, before its end [r]. *)
Inductive parts_in (b : bytes) : list part -> bytes -> Prop :=
| parts_none : parts_in b [] b
| parts_skip ps u r : parts_in b ps (u ++ r) -> parts_in b ps r
| parts_next ps p ascii t r : parts_in b ps (str "$" ++ part_name p ++ t ++ r) -> part_says ascii p t r ->
    parts_in b (ps ++ [p]) r.

(** All of [ps] is written in [b], except that the last may be cut off. *)
Definition written22 (b : bytes) (ps : list part) : Prop :=
  (exists r, parts_in b ps r) \/
  exists qs p ascii t, ps = qs ++ [p] /\ parts_in b qs (str "$" ++ part_name p ++ t) /\ part_cut ascii p t.

(** [ps] is what the mesh [s] holds. *)
Record holds22 (ps : list part) (s : MshSpec) : Prop := {
  holds_nodes : mesh_nodes (nodes s) = all_nodes ps;
  holds_elements : mesh_elements (elements s) = map rec_element (all_recs ps);
  holds_entities : entities_from ps ents_default (entities s) }.

(** Every mesh section met is read as version 2.2. *)
Definition all_22 (c : cfg) (b : bytes) : Prop :=
  forall name spec s, meets c b name spec s -> name = str "$Entities" \/ name = str "$Nodes" \/ name = str "$Elements" ->
    version (mesh_format spec) = str "2.2".
