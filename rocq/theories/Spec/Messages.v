(** Why load_msh refuses a file, and what it says: one case for each message. *)

From Verif Require Export Spec.Words Spec.Hazards.

(** In a section of this name, with the header [f] read before it and [after]
    following the marker in the file. *)
Inductive reason (f : MeshFormat) (after : bytes) : string -> exn -> Prop :=
| version_unknown w v r : after = w ++ v ++ r -> blank w -> word v -> ends_word r -> v <> str "2.2" -> v <> str "4.1" ->
    reason f after "$MeshFormat" (UnsupportedFeature (str "Unsupported MSH version: " ++ v))
| size_wrong d : d <> 8 ->
    reason f after "$MeshFormat" (UnsupportedFeature (str "MSH file (v4.1) requested data size of " ++ show_Z d ++
      str " bytes, which is different than `size_t` (8 bytes)"))
| order_wrong v : v = str "2.2" \/ v = str "4.1" ->
    reason f after "$MeshFormat" (UnsupportedFeature (str "MSH file (v" ++ v ++ str ") is encoded with unsupported endianness!"))
| type_unknown t : ~ 1 <= t <= 31 ->
    reason f after "$Elements" (UnsupportedFeature (str "Unsupported element type: " ++ show_Z t))
| count_exceeded : v22 f -> file_type f <> 0 ->
    reason f after "$Elements" (InvalidFormat (str "Inconsistent element count detected!"))
| entities_unknown : v22 f ->
    reason f after "$Entities" (InvalidFormat (str "$Entities section not supported by MSH version 2.2"))
| tags_missing name : In name data_sections ->
    reason f after name (InvalidFormat (str "Data requires at least 3 int tags.")).
