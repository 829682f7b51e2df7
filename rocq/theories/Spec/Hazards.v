(** Which exceptions and which undefined behaviour each section can cause. *)

From Verif Require Export Spec.Steps Spec.Files22.

Definition text (f : MeshFormat) : Prop := file_type f = 0.
Definition v41 (f : MeshFormat) : Prop := version f = str "4.1".
Definition v22 (f : MeshFormat) : Prop := version f = str "2.2".

(** The sections that hold values in vectors. *)
Definition mesh_sections : list string := ["$Nodes"; "$Elements"]%string.
Definition data_sections : list string := ["$NodeData"; "$ElementData"; "$ElementNodeData"]%string.
Definition spline_sections : list string := ["$Curves"; "$Patches"]%string.

(** What can go wrong in a section when the header read before is [f]. *)
Inductive hazard (c : cfg) (f : MeshFormat) : string -> ub -> Prop :=
| dimension_overflows : v41 f -> hazard c f "$Nodes" SignedOverflow
| coordinates_wrap : v41 f -> text f -> hazard c f "$Nodes" OutOfBounds
| node_cut_off : v22 f -> ~ text f -> hazard c f "$Nodes" Indeterminate
| elements_wrap : v41 f -> text f -> hazard c f "$Elements" OutOfBounds
| element_cut_off : v22 f -> hazard c f "$Elements" Indeterminate
| tag_bytes_overflow : v22 f -> ~ text f -> hazard c f "$Elements" SignedOverflow
| entities_cut_off : v41 f -> hazard c f "$Entities" Indeterminate
| names_cut_off : hazard c f "$PhysicalNames" Indeterminate
| data_cut_off name : In name data_sections -> hazard c f name Indeterminate
| fields_wrap : file_type f <= 0 -> hazard c f "$ElementNodeData" OutOfBounds
| splines_cut_off name : nanospline c = true -> In name spline_sections -> hazard c f name Indeterminate.

(** Exceptions and what they say. *)
Definition memory (e : exn) : Prop := e = LengthError \/ e = BadAlloc.
Definition bad_element_type (t : Z) : exn := UnsupportedFeature (str "Unsupported element type: " ++ show_Z t).
Inductive refusal (c : cfg) (f : MeshFormat) : string -> exn -> Prop :=
| bad_header_version v : v <> str "2.2" -> v <> str "4.1" ->
    refusal c f "$MeshFormat" (UnsupportedFeature (str "Unsupported MSH version: " ++ v))
| bad_header_size d : d <> 8 ->
    refusal c f "$MeshFormat" (UnsupportedFeature (str "MSH file (v4.1) requested data size of " ++ show_Z d ++
      str " bytes, which is different than `size_t` (8 bytes)"))
| bad_header_order v : v = str "2.2" \/ v = str "4.1" ->
    refusal c f "$MeshFormat" (UnsupportedFeature (str "MSH file (v" ++ v ++ str ") is encoded with unsupported endianness!"))
| bad_version name : ~ v41 f -> ~ v22 f -> In name mesh_sections ->
    refusal c f name (UnsupportedFeature (str "Unsupported MSH version: " ++ version f))
| bad_type t : v41 f \/ v22 f -> ~ 1 <= t <= 31 -> refusal c f "$Elements" (bad_element_type t)
| too_many_elements : v22 f -> ~ text f ->
    refusal c f "$Elements" (InvalidFormat (str "Inconsistent element count detected!"))
| entities_in_22 : v22 f ->
    refusal c f "$Entities" (InvalidFormat (str "$Entities section not supported by MSH version 2.2"))
| few_tags name : In name data_sections -> refusal c f name (InvalidFormat (str "Data requires at least 3 int tags."))
| bad_data name : ~ v41 f -> ~ v22 f -> 0 < file_type f -> In name data_sections ->
    refusal c f name (InvalidFormat (str "Unsupported version " ++ version f))
| too_big name e : memory e -> v41 f \/ v22 f -> In name mesh_sections -> refusal c f name e
| entities_too_big e : memory e -> v41 f -> refusal c f "$Entities" e
| names_too_big e : memory e -> refusal c f "$PhysicalNames" e
| data_too_big name e : memory e -> In name data_sections -> refusal c f name e
| splines_too_big name e : nanospline c = true -> memory e -> In name spline_sections -> refusal c f name e.
