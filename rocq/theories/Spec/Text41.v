(** 4.1 files in any layout, following the MSH 4.1 format description: in text
    files numbers are words, spelt and separated in any way. *)

From Verif Require Export Spec.Numerals Spec.Format Spec.Text22.

(** The words a number may be written as. *)
Definition field_word (f : field) : bytes -> Prop :=
  match f with Int z => int_word z | Size z => size_word z | Real x => real_word x end.

(** A name in quotes. *)
Definition name_word (n : bytes) : bytes -> Prop := fun w => w = in_quotes n.

(** Text made of one word of each kind, in order. *)
Definition text_like (kinds : list (bytes -> Prop)) (t : bytes) : Prop :=
  exists ws, Forall2 (fun (k : bytes -> Prop) w => k w) kinds ws /\ laid_out ws t.

(** The same, with exactly one character [g] after the last word. *)
Inductive laid_line (g : byte) : list bytes -> bytes -> Prop :=
| line_last w : laid_line g [w] (w ++ [g])
| line_cons w sep l t : blank sep -> sep <> [] -> laid_line g l t ->
    laid_line g (w :: l) (w ++ sep ++ t).
Definition line_like (kinds : list (bytes -> Prop)) (t : bytes) : Prop :=
  exists ws g, gap g /\ Forall2 (fun (k : bytes -> Prop) w => k w) kinds ws /\ laid_line g ws t.

Definition fields (l : list field) : list (bytes -> Prop) := map field_word l.

(** Numbers in the encoding of the file; raw numbers may be followed by whitespace. *)
Definition body_like (ascii : bool) (records : list (list field)) (t : bytes) : Prop :=
  if ascii then text_like (fields (List.concat records)) t
  else exists sep, blank sep /\ t = encode false records ++ sep.

(** ** The sections *)

Inductive sec :=
| SGroups (l : list PhysicalGroup)
| SEntities (e : Entities)
| SNodes (n : Nodes)
| SElements (e : Elements)
| SNodeData (d : Data)
| SElementData (d : Data)
| SElementNodeData (d : Data)
| SSplineFormat (v : bytes)
| SCurves (l : list Curve)
| SPatches (l : list Patch)
(* a section load_msh does not know *)
| SOther (name : bytes).

Definition sec_name (p : sec) : bytes :=
  match p with
  | SGroups _ => str "PhysicalNames"
  | SEntities _ => str "Entities"
  | SNodes _ => str "Nodes"
  | SElements _ => str "Elements"
  | SNodeData _ => str "NodeData"
  | SElementData _ => str "ElementData"
  | SElementNodeData _ => str "ElementNodeData"
  | SSplineFormat _ => str "NanoSplineFormat"
  | SCurves _ => str "Curves"
  | SPatches _ => str "Patches"
  | SOther n => n
  end.

Definition group_kinds (g : PhysicalGroup) : list (bytes -> Prop) :=
  [int_word (pg_dim g); int_word (pg_tag g); name_word (pg_name g)].

Definition tags_kinds (h : DataHeader) : list (bytes -> Prop) :=
  size_word (zlen (string_tags h)) :: map name_word (string_tags h) ++
  size_word (zlen (real_tags h)) :: map real_word (real_tags h) ++
  size_word (zlen (int_tags h)) :: map int_word (int_tags h).

(** In text files entry tags are not limited to int. *)
Definition entry_kinds (per_node : bool) (e : DataEntry) : list (bytes -> Prop) :=
  size_word (de_tag e) :: (if per_node then [int_word (de_npe e)] else []) ++ map real_word (de_data e).

(** Tags as text, entries in the encoding of the file. *)
Definition data_like (ascii per_node : bool) (d : Data) (t : bytes) : Prop :=
  if ascii then text_like (tags_kinds (d_header d) ++ flat_map (entry_kinds per_node) (d_entries d)) t
  else exists h sep, line_like (tags_kinds (d_header d)) h /\ blank sep /\
    t = h ++ encode false (map (entry_record per_node) (d_entries d)) ++ sep.

(** A line of text, the data in the encoding of the file. *)
Definition spline_like (ascii : bool) (head : list Z) (data : list dbl) (t : bytes) : Prop :=
  if ascii then text_like (map size_word head ++ map real_word data) t
  else exists h sep, line_like (map size_word head) h /\ blank sep /\
    t = h ++ encode false [map Real data] ++ sep.
Definition curve_like (ascii : bool) (k : Curve) : bytes -> Prop :=
  spline_like ascii [cv_tag k; cv_type k; cv_degree k; cv_ncp k; cv_nknots k; cv_weights k] (cv_data k).
Definition patch_like (ascii : bool) (k : Patch) : bytes -> Prop :=
  spline_like ascii [pt_tag k; pt_type k; pt_degu k; pt_degv k; pt_ncp k; pt_nu k; pt_nv k; pt_weights k]
    (pt_data k).
Definition counted_like {A} (one : A -> bytes -> Prop) (l : list A) (t : bytes) : Prop :=
  exists h ts, text_like [size_word (zlen l)] h /\ Forall2 one l ts /\ t = h ++ List.concat ts.

Definition sec_body (ascii : bool) (p : sec) (t : bytes) : Prop :=
  match p with
  | SGroups l => text_like (int_word (zlen l) :: flat_map group_kinds l) t
  | SEntities e => body_like ascii (entities_records e) t
  | SNodes n => body_like ascii (nodes_records n) t
  | SElements e => body_like ascii (elements_records e) t
  | SNodeData d | SElementData d => data_like ascii false d t
  | SElementNodeData d => data_like ascii true d t
  | SSplineFormat v => text_like [eq v] t
  | SCurves l => counted_like (curve_like ascii) l t
  | SPatches l => counted_like (patch_like ascii) l t
  | SOther name => exists ws, Forall (fun w => word w /\ w <> str "$End" ++ name) ws /\ laid_out ws t
  end.

(** Sections whose body starts with raw numbers in binary files. *)
Definition raw_start (p : sec) : Prop :=
  match p with SEntities _ | SNodes _ | SElements _ => True | _ => False end.

(** $Name, the body, $EndName.  Raw numbers start right after one character. *)
Definition sec_text (ascii : bool) (p : sec) (t : bytes) : Prop :=
  exists sep b sep', blank sep /\ sep <> [] /\ blank sep' /\ sep' <> [] /\
    (ascii = false -> raw_start p -> exists g, gap g /\ sep = [g]) /\ sec_body ascii p b /\
    t = str "$" ++ sec_name p ++ sep ++ b ++ str "$End" ++ sec_name p ++ sep'.

(** $MeshFormat with version [v]; the int 1 follows in binary files. *)
Definition head_text (v : string) (ascii : bool) (t : bytes) : Prop :=
  exists sep b sep', blank sep /\ sep <> [] /\ blank sep' /\ sep' <> [] /\
    (if ascii then text_like [eq (str v); int_word 0; int_word 8] b
     else exists h s1 s2, text_like [eq (str v); int_word 1] h /\
       (exists w, int_word 8 w /\ Forall gap s1 /\ s1 <> [] /\ blank s2 /\
                  b = h ++ w ++ s1 ++ [x01; x00; x00; x00] ++ s2)) /\
    t = str "$MeshFormat" ++ sep ++ b ++ str "$EndMeshFormat" ++ sep'.

(** Loose words between the sections. *)
Definition loose (t : bytes) : Prop :=
  exists ws, Forall (fun w => word w /\ plain w) ws /\ laid_out ws t.

(** A header and any sections in any order, any number of times; loose words are ignored. *)
Inductive secs_text (ascii : bool) : list sec -> bytes -> Prop :=
| secs_nil : secs_text ascii [] []
| secs_cons p ps l t r : loose l -> sec_text ascii p t -> secs_text ascii ps r ->
    secs_text ascii (p :: ps) (l ++ t ++ r).
Definition file41 (ascii : bool) (ps : list sec) (b : bytes) : Prop :=
  exists l h r l', loose l /\ head_text "4.1" ascii h /\ secs_text ascii ps r /\ loose l' /\
    b = l ++ h ++ r ++ l'.

(** ** The values a section may hold *)

Definition small_data_tags (d : Data) : Prop := Forall (fun e => de_tag e <= INT_MAX) (d_entries d).

Definition sec_ok (c : cfg) (ascii : bool) (p : sec) : Prop :=
  match p with
  | SGroups l => groups_ok c l
  | SEntities e => entities_ok c ascii e
  | SNodes n => nodes_ok c ascii n /\ size_ok (n_num_nodes n)
  | SElements e => elements_ok c e /\ size_ok (e_num_elements e)
  | SNodeData d | SElementData d => data_ok c ascii false d /\ (ascii = false -> small_data_tags d)
  | SElementNodeData d => data_ok c ascii true d /\ (ascii = false -> small_data_tags d)
  | SSplineFormat v => word v
  | SCurves l => nanospline c = true /\ Forall (curve_ok c ascii) l /\ fits c sz_Curve (zlen l)
  | SPatches l => nanospline c = true /\ Forall (patch_ok c ascii) l /\ fits c sz_Patch (zlen l)
  | SOther n => word n /\ (~ In n known_sections \/
                           nanospline c = false /\ In n [str "Curves"; str "Patches"])
  end.

(** ** What the file holds: the last section of a kind, all data sections *)

Fixpoint last_of {A} (pick : sec -> option A) (ps : list sec) (d : A) : A :=
  match ps with
  | [] => d
  | p :: ps => last_of pick ps (match pick p with Some x => x | None => d end)
  end.
Definition all_of {A} (pick : sec -> option A) (ps : list sec) : list A :=
  flat_map (fun p => match pick p with Some x => [x] | None => [] end) ps.

Definition content41 (ascii : bool) (ps : list sec) : MshSpec := {|
  mesh_format := {| version := str "4.1"; file_type := if ascii then 0 else 1; data_size := 8 |};
  nodes := last_of (fun p => match p with SNodes n => Some n | _ => None end) ps n_default;
  elements := last_of (fun p => match p with SElements e => Some e | _ => None end) ps e_default;
  entities := last_of (fun p => match p with SEntities e => Some e | _ => None end) ps ents_default;
  physical_groups := last_of (fun p => match p with SGroups l => Some l | _ => None end) ps [];
  node_data := all_of (fun p => match p with SNodeData d => Some d | _ => None end) ps;
  element_data := all_of (fun p => match p with SElementData d => Some d | _ => None end) ps;
  element_node_data := all_of (fun p => match p with SElementNodeData d => Some d | _ => None end) ps;
  ns_version := last_of (fun p => match p with SSplineFormat v => Some v | _ => None end) ps (str "1.0");
  curves := last_of (fun p => match p with SCurves l => Some l | _ => None end) ps [];
  patches := last_of (fun p => match p with SPatches l => Some l | _ => None end) ps [] |}.

(** Sections of which only the last one counts. *)
Definition replaced (p : sec) : Prop :=
  match p with SNodeData _ | SElementData _ | SElementNodeData _ => False | _ => True end.
