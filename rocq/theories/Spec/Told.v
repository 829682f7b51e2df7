(** What a file says, however it is laid out: the converse of Spec/Text41.v. *)

From Verif Require Export Spec.Numerals Spec.Format Spec.Words.

(** Each of the following says of a text, and of what follows it, what the text
    stands for. *)

(** Nothing longer at this place is a numeral. *)
Definition longest (P : bytes -> Prop) (w r : bytes) : Prop :=
  forall w' r', w' ++ r' = w ++ r -> P w' -> (List.length w' <= List.length w)%nat.
Definition is_integer (w : bytes) : Prop := exists z, integer w z.
Definition is_real (w : bytes) : Prop := exists minus q, real w minus q.

Definition int_written (z : Z) (w r : bytes) : Prop := int_word z w /\ longest is_integer w r.
(** A size_t may be written with a minus sign, meaning the number modulo 2^64. *)
Definition size_written (z : Z) (w r : bytes) : Prop :=
  (exists n, integer w n /\ - 2 ^ 64 < n < 2 ^ 64 /\ z = n mod 2 ^ 64) /\ longest is_integer w r.
(** The closest double, with the sign written. *)
Definition real_written (x : dbl) (w r : bytes) : Prop :=
  (exists minus q, real w minus q /\ closest_double q x /\ (2 ^ 63 <=? x) = minus) /\ longest is_real w r.

(** Text between quotes: a backslash stands for the character after it. *)
Inductive unescapes : bytes -> bytes -> Prop :=
| unescapes_nil : unescapes [] []
| unescapes_plain b t n : b <> x22 -> b <> x5c -> unescapes t n -> unescapes (b :: t) (b :: n)
| unescapes_escape b t n : unescapes t n -> unescapes (x5c :: b :: t) (b :: n).
(** A name in quotes, or a word. *)
Definition name_written (n w r : bytes) : Prop :=
  (exists t, w = [x22] ++ t ++ [x22] /\ unescapes t n) \/
  (word w /\ w = n /\ (forall t, w <> x22 :: t) /\ ends_word r).

Definition written (f : field) : bytes -> bytes -> Prop :=
  match f with Int z => int_written z | Size z => size_written z | Real x => real_written x end.

(** What sort of number. *)
Inductive sort := SortInt | SortSize | SortReal.
Definition sort_of (f : field) : sort := match f with Int _ => SortInt | Size _ => SortSize | Real _ => SortReal end.

(** One word of each kind, in order, with any whitespace before each. *)
Inductive in_words : list (bytes -> bytes -> Prop) -> bytes -> bytes -> Prop :=
| in_words_nil r : in_words [] [] r
| in_words_cons (k : bytes -> bytes -> Prop) ks u w t r : blank u -> k w (t ++ r) -> in_words ks t r ->
    in_words (k :: ks) (u ++ w ++ t) r.

(** At most one character of whitespace before raw numbers. *)
Definition maybe_gap (u : bytes) : Prop := u = [] \/ exists g, gap g /\ u = [g].

Definition numbers (ascii : bool) (l : list field) (t r : bytes) : Prop :=
  if ascii then in_words (map written l) t r
  else exists u, maybe_gap u /\ t = u ++ flat_map raw_of l.

(** ** The numbers of each 4.1 section, in order *)

Definition node_block_numbers (b : NodeBlock) : list field :=
  [Int (nb_dim b); Int (nb_tag b); Int (nb_parametric b); Size (nb_num b)] ++ map Size (nb_tags b) ++ map Real (nb_data b).
Definition nodes_numbers (n : Nodes) : list field :=
  sizes [n_num_blocks n; n_num_nodes n; n_min n; n_max n] ++ flat_map node_block_numbers (n_blocks n).

Definition element_block_numbers (b : ElementBlock) : list field :=
  [Int (eb_dim b); Int (eb_tag b); Int (eb_type b); Size (eb_num b)] ++ map Size (eb_data b).
Definition elements_numbers (e : Elements) : list field :=
  sizes [e_num_blocks e; e_num_elements e; e_min e; e_max e] ++ flat_map element_block_numbers (e_blocks e).

Definition entities_numbers (e : Entities) : list field := List.concat (entities_records e).

Definition groups_words (l : list PhysicalGroup) : list (bytes -> bytes -> Prop) :=
  int_written (zlen l) :: flat_map (fun g => [int_written (pg_dim g); int_written (pg_tag g); name_written (pg_name g)]) l.

Definition tags_words (h : DataHeader) : list (bytes -> bytes -> Prop) :=
  [size_written (zlen (string_tags h))] ++ map name_written (string_tags h) ++
  [size_written (zlen (real_tags h))] ++ map real_written (real_tags h) ++
  [size_written (zlen (int_tags h))] ++ map int_written (int_tags h).
Definition entry_words (per_node : bool) (e : DataEntry) : list (bytes -> bytes -> Prop) :=
  [size_written (de_tag e)] ++ (if per_node then [int_written (de_npe e)] else []) ++ map real_written (de_data e).
Definition data_text (ascii per_node : bool) (d : Data) (t r : bytes) : Prop :=
  if ascii then in_words (tags_words (d_header d) ++ flat_map (entry_words per_node) (d_entries d)) t r
  else exists h u v, t = h ++ u ++ v /\ in_words (tags_words (d_header d)) h (u ++ v ++ r) /\ maybe_gap u /\
    v = flat_map (fun e => flat_map raw_of (entry_record per_node e)) (d_entries d).

(** [b] has a section [name] starting with a text of which [P] holds. *)
Definition says (b name : bytes) (P : bytes -> bytes -> Prop) : Prop :=
  exists pre t post, b = pre ++ name ++ t ++ post /\ P t post.

(** Physical groups and data are in the file. *)
Record told_common (b : bytes) (s : MshSpec) : Prop := {
  told_groups : physical_groups s = [] \/ says b (str "$PhysicalNames") (in_words (groups_words (physical_groups s)));
  told_node_data : Forall (fun d => exists ascii, says b (str "$NodeData") (data_text ascii false d)) (node_data s);
  told_element_data : Forall (fun d => exists ascii, says b (str "$ElementData") (data_text ascii false d)) (element_data s);
  told_element_node_data :
    Forall (fun d => exists ascii, says b (str "$ElementNodeData") (data_text ascii true d)) (element_node_data s) }.

(** Entities, nodes and elements are in the file as 4.1 sections. *)
Record told_mesh (b : bytes) (s : MshSpec) : Prop := {
  told_entities : entities s = ents_default \/
    exists ascii, says b (str "$Entities") (numbers ascii (entities_numbers (entities s)));
  told_nodes : nodes s = n_default \/ exists ascii, says b (str "$Nodes") (numbers ascii (nodes_numbers (nodes s)));
  told_elements : elements s = e_default \/
    exists ascii, says b (str "$Elements") (numbers ascii (elements_numbers (elements s))) }.
