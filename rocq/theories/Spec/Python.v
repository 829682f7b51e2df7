(** What Python shows of the objects of the module. *)

From Verif Require Export Model.Python Spec.Numerals.

(** ** UTF-8 *)

(** Unicode scalar values: no surrogates. *)
Definition scalar (u : Z) : Prop := 0 <= u < 55296 \/ 57344 <= u < 1114112.

(** The bytes of a character (RFC 3629, section 3). *)
Definition encoding (u : Z) : list Z :=
  if u <? 2 ^ 7 then [u]
  else if u <? 2 ^ 11 then [192 + u / 64; 128 + u mod 64]
  else if u <? 2 ^ 16 then [224 + u / 4096; 128 + u / 64 mod 64; 128 + u mod 64]
  else [240 + u / 262144; 128 + u / 4096 mod 64; 128 + u / 64 mod 64; 128 + u mod 64].

Definition utf8 (b : bytes) : Prop :=
  exists us, Forall scalar us /\ map (fun c => Z.of_N (Byte.to_N c)) b = flat_map encoding us.

(** ** Numbers *)

(** The shortest numeral of an integer. *)
Definition shortest (t : bytes) (z : Z) : Prop :=
  integer t z /\ forall t', integer t' z -> (List.length t <= List.length t')%nat.

(** n millionths are closest to [q]; of two equally close ones, the even one. *)
Definition closest_millionths (q : Q) (n : Z) : Prop :=
  forall n', (Qabs (decimal n (-6) - q) < Qabs (decimal n' (-6) - q))%Q \/ n = n' \/
    (Qabs (decimal n (-6) - q) == Qabs (decimal n' (-6) - q))%Q /\ Z.even n = true.

(** A double with six decimals, and a minus if the sign bit is set. *)
Definition six_decimals (t : bytes) (d : dbl) : Prop :=
  exists ip fp ki ni nf, digits ip ki ni /\ 1 <= ki /\ digits fp 6 nf /\
    (forall t' k', digits t' k' ni -> 1 <= k' -> (List.length ip <= List.length t')%nat) /\
    t = (if 2 ^ 63 <=? d then str "-" else []) ++ ip ++ str "." ++ fp /\
    closest_millionths (dval d) (signed (2 ^ 63 <=? d) (1000000 * ni + nf)).

Definition infinite (d : dbl) : Prop := d mod 2 ^ 63 = 2047 * 2 ^ 52.

Definition float_text (t : bytes) (d : dbl) : Prop :=
  finite d /\ six_decimals t d \/
  infinite d /\ t = (if 2 ^ 63 <=? d then str "-inf" else str "inf") \/
  ~ finite d /\ ~ infinite d /\ t = (if 2 ^ 63 <=? d then str "-nan" else str "nan").

(** ** Objects *)

Fixpoint joined (l : list bytes) : bytes :=
  match l with
  | [] => []
  | [t] => t
  | t :: l' => t ++ str ", " ++ joined l'
  end.

(** Lists that are shown item by item; of the others the length is shown. *)
Definition whole (o : pyobj) : bool := match o with OData _ | OSpec _ => true | _ => false end.

(** Attributes that are not shown. *)
Definition hidden (o : pyobj) (name : String.string) : bool :=
  match o with
  | ONodeBlock _ | OElementBlock _ => String.eqb name "data"
  | ONodes _ | OElements _ => String.eqb name "entity_blocks"
  | _ => false
  end.

Definition displays (items : bool) (v : pyval) (t : bytes) : Prop :=
  match v with
  | VInt z => shortest t z
  | VFloat d => float_text t d
  | VStr b => t = b
  | VObj o => py_repr o = Some t
  | VInts l => shortest t (Z.of_nat (List.length l))
  | VFloats l => shortest t (Z.of_nat (List.length l))
  | VStrs l => shortest t (Z.of_nat (List.length l))
  | VObjs l =>
    if items then exists ts, Forall2 (fun o t => py_repr o = Some t) l ts /\ t = str "[" ++ joined ts ++ str "]"
    else shortest t (Z.of_nat (List.length l))
  end.

(** The name of the class, and between parentheses the attributes that are
    shown, in order, under their own names. *)
Definition shown_as (o : pyobj) (t : bytes) : Prop :=
  exists ts,
    Forall2 (fun a x => exists w, displays (whole o) (snd a) w /\ x = str (fst a) ++ str "=" ++ w)
      (filter (fun a => negb (hidden o (fst a))) (attributes o)) ts /\
    t = str (class_name o) ++ str "(" ++ joined ts ++ str ")".

Definition floats_ok (o : pyobj) : Prop := forall n d, In (n, VFloat d) (attributes o) -> size_ok d.

(** The strings that are shown. *)
Definition strings (o : pyobj) : list bytes :=
  match o with
  | OFormat f => [version f]
  | OGroup g => [pg_name g]
  | OSpec s => version (mesh_format s) :: map pg_name (physical_groups s)
  | _ => []
  end.

(** ** What a shown spec tells *)

Definition outline_data (d : Data) :=
  (zlen (string_tags (d_header d)), zlen (real_tags (d_header d)), zlen (int_tags (d_header d)),
   map (fun e => (de_tag e, de_npe e, zlen (de_data e))) (d_entries d)).

Definition outline (s : MshSpec) :=
  (mesh_format s,
   (n_num_blocks (nodes s), n_num_nodes (nodes s), n_min (nodes s), n_max (nodes s)),
   (e_num_blocks (elements s), e_num_elements (elements s), e_min (elements s), e_max (elements s)),
   (zlen (points (entities s)), zlen (curves_e (entities s)), zlen (surfaces_e (entities s)), zlen (volumes_e (entities s))),
   physical_groups s,
   (map outline_data (node_data s), map outline_data (element_data s), map outline_data (element_node_data s))).

(** Versions without commas, names without closing parentheses. *)
Definition plain_strings (s : MshSpec) : Prop :=
  ~ In x2c (version (mesh_format s)) /\ Forall (fun g => ~ In x29 (pg_name g)) (physical_groups s).
