(** 2.2 files in any layout, following the MSH 2.2 format description: numbers
    in text are words, spelt and separated in any way. *)

From Verif Require Export Spec.Text41.

(** "tag x y z" *)
Definition node22_kinds (n : node) : list (bytes -> Prop) :=
  [size_word (n_tag n); real_word (n_x n); real_word (n_y n); real_word (n_z n)].

(** "id type number-of-tags tags... nodes..." *)
Definition rec_kinds (r : el_rec) : list (bytes -> Prop) :=
  int_word (er_id r) :: int_word (er_type r) :: int_word (zlen (er_tags r)) ::
  map int_word (er_tags r) ++ map int_word (er_nodes r).

(** The count is text in both encodings; raw records start right after one character. *)
Definition part_body (ascii : bool) (p : part) (t : bytes) : Prop :=
  match p with
  | NodesPart l =>
      if ascii then text_like (size_word (zlen l) :: flat_map node22_kinds l) t
      else exists h sep, line_like [size_word (zlen l)] h /\ blank sep /\
        t = h ++ List.concat (map node_bytes l) ++ sep
  | ElementsPart l =>
      if ascii then text_like (size_word (zlen l) :: flat_map rec_kinds l) t
      else exists h bs sep, line_like [size_word (zlen l)] h /\ blank sep /\
        l = flat_map bl_recs bs /\ Forall block22_ok bs /\ Forall (fun b => bl_recs b <> []) bs /\
        t = h ++ List.concat (map block22_bytes bs) ++ sep
  end.

Definition part_name (p : part) : bytes :=
  match p with NodesPart _ => str "Nodes" | ElementsPart _ => str "Elements" end.

(** Nodes and elements as in 2.2, the other sections as in 4.1. *)
Inductive sec22 := Part (p : part) | Extra (p : sec).

Definition sec22_text (ascii : bool) (q : sec22) (t : bytes) : Prop :=
  match q with
  | Part p => exists sep b sep', blank sep /\ sep <> [] /\ blank sep' /\ sep' <> [] /\ part_body ascii p b /\
      t = str "$" ++ part_name p ++ sep ++ b ++ str "$End" ++ part_name p ++ sep'
  | Extra p => ~ raw_start p /\ sec_text ascii p t
  end.

Definition sec22_ok (c : cfg) (ascii : bool) (q : sec22) : Prop :=
  match q with Part p => part_ok ascii p | Extra p => sec_ok c ascii p end.

Inductive secs22_text (ascii : bool) : list sec22 -> bytes -> Prop :=
| secs22_nil : secs22_text ascii [] []
| secs22_cons q qs l t r : loose l -> sec22_text ascii q t -> secs22_text ascii qs r ->
    secs22_text ascii (q :: qs) (l ++ t ++ r).

Definition any22 (ascii : bool) (qs : list sec22) (b : bytes) : Prop :=
  exists l h r l', loose l /\ head_text "2.2" ascii h /\ secs22_text ascii qs r /\ loose l' /\
    b = l ++ h ++ r ++ l'.

Definition parts_of (qs : list sec22) : list part :=
  flat_map (fun q => match q with Part p => [p] | Extra _ => [] end) qs.
Definition extras_of (qs : list sec22) : list sec :=
  flat_map (fun q => match q with Part _ => [] | Extra p => [p] end) qs.

(** A spec without physical groups, data and splines. *)
Definition bare (s : MshSpec) : MshSpec := {|
  mesh_format := mesh_format s; nodes := nodes s; elements := elements s; entities := entities s;
  physical_groups := []; node_data := []; element_data := []; element_node_data := [];
  ns_version := str "1.0"; curves := []; patches := [] |}.

Record content22 (ascii : bool) (qs : list sec22) (lo hi : Z) (s : MshSpec) : Prop := {
  c22_mesh : mesh_of ascii (parts_of qs) lo hi (bare s);
  c22_groups : physical_groups s = physical_groups (content41 ascii (extras_of qs));
  c22_node_data : node_data s = node_data (content41 ascii (extras_of qs));
  c22_element_data : element_data s = element_data (content41 ascii (extras_of qs));
  c22_element_node_data : element_node_data s = element_node_data (content41 ascii (extras_of qs));
  c22_ns_version : ns_version s = ns_version (content41 ascii (extras_of qs));
  c22_curves : curves s = curves (content41 ascii (extras_of qs));
  c22_patches : patches s = patches (content41 ascii (extras_of qs)) }.
