(** Texts that differ in their whitespace only. *)

From Verif Require Export Spec.Text22 Spec.Numerals Spec.Format.

(** A word without quotes, or a quoted string that holds no section name. *)
Definition unquoted (w : bytes) : Prop := w <> [] /\ Forall (fun b => is_ws b = false /\ b <> x22) w.
Definition item (w : bytes) : Prop := unquoted w \/ exists n, w = in_quotes n /\ ~ In x24 n.

(** Every header says that the file is text. *)
Definition text_headers (ws : list bytes) : Prop :=
  forall l p v w r, ws = l ++ (p ++ str "$MeshFormat") :: v :: w :: r -> int_word 0 w.

Definition tidy (ws : list bytes) : Prop := Forall item ws /\ text_headers ws.

(** These words, each followed by some whitespace. *)
Definition typed (ws : list bytes) (b : bytes) : Prop :=
  exists u t, blank u /\ laid_out ws t /\ b = u ++ t.

Definition respaced (b b' : bytes) : Prop := exists ws, tidy ws /\ typed ws b /\ typed ws b'.

(** Unix line ends become DOS line ends. *)
Definition dos (b : bytes) : bytes := flat_map (fun c => if Byte.eqb c x0a then [x0d; x0a] else [c]) b.

(** No section names, line ends or quotes where they would be taken for text. *)
Definition plain_name (n : bytes) : Prop := ~ In x24 n /\ ~ In x0a n.
Definition plain_names (s : MshSpec) : Prop :=
  Forall (fun g => plain_name (pg_name g)) (physical_groups s) /\
  Forall (fun d => Forall plain_name (string_tags (d_header d))) (node_data s ++ element_data s ++ element_node_data s) /\
  Forall (fun b => is_ws b = false /\ b <> x22 /\ b <> x24) (ns_version s).
