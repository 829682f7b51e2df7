(** python/pymshio.cpp: the classes of the Python module, their attributes and
    their __repr__.

    Trusted about nanobind and CPython: a std::string becomes a str by strict
    UTF-8 decoding, which raises UnicodeDecodeError on anything else (here
    [None]); the std::string cast back from it has the same bytes; a
    std::vector becomes a list, whose __repr__ is the __repr__ of its items
    between brackets, separated by a comma and a space.

    Simplifications: strs are the bytes of their UTF-8 encoding; memory errors
    are not modelled.  Setting attributes is in [Model.PySet].
    The functions of the module are those of [Model.Fs], [Model.Validate] and
    [Model.Elem]. *)

From Verif Require Export Model.Fs.

(** ** Text *)

(** std::to_string(double): sprintf "%f", exact, half to even. *)
Definition show_fixed_mag (a : Z) : bytes :=
  if a =? inf_mag then str "inf"
  else if inf_mag <? a then str "nan"
  else let n := rne_div (mag_units a * 1000000) (2 ^ 1074) in
       show_nonneg (n / 1000000) ++ x2e :: chrs (six_digits (n mod 1000000)).
Definition to_string_double (d : dbl) : bytes :=
  (if dneg d then [x2d] else []) ++ show_fixed_mag (dmag d).

(** std::to_string of int and size_t. *)
Definition to_string (z : Z) : bytes := show_Z z.

(** Continuation bytes. *)
Definition cont (c : byte) : bool := (128 <=? b2z c) && (b2z c <=? 191).
(** Second bytes after the first byte [x] of three. *)
Definition second3 (x y : Z) : bool :=
  (x =? 224) && (160 <=? y) && (y <=? 191) ||
  ((225 <=? x) && (x <=? 236) || (238 <=? x) && (x <=? 239)) && (128 <=? y) && (y <=? 191) ||
  (x =? 237) && (128 <=? y) && (y <=? 159).
(** Second bytes after the first byte [x] of four. *)
Definition second4 (x y : Z) : bool :=
  (x =? 240) && (144 <=? y) && (y <=? 191) ||
  (241 <=? x) && (x <=? 243) && (128 <=? y) && (y <=? 191) ||
  (x =? 244) && (128 <=? y) && (y <=? 143).

(** PyUnicode_DecodeUTF8 succeeds. *)
Fixpoint utf8_ok (b : bytes) : bool :=
  match b with
  | [] => true
  | c :: r =>
    if b2z c <? 128 then utf8_ok r else
    match r with
    | [] => false
    | c1 :: r1 =>
      if (194 <=? b2z c) && (b2z c <=? 223) then cont c1 && utf8_ok r1 else
      match r1 with
      | [] => false
      | c2 :: r2 =>
        if (224 <=? b2z c) && (b2z c <=? 239) then second3 (b2z c) (b2z c1) && cont c2 && utf8_ok r2 else
        match r2 with
        | [] => false
        | c3 :: r3 => second4 (b2z c) (b2z c1) && cont c2 && cont c3 && utf8_ok r3
        end
      end
    end
  end.

(** std::string to str. *)
Definition py_str (b : bytes) : option bytes := if utf8_ok b then Some b else None.

Definition pbind {A B} (x : option A) (f : A -> option B) : option B :=
  match x with Some a => f a | None => None end.

(** list.__repr__ *)
Fixpoint py_items (l : list (option bytes)) : option bytes :=
  match l with
  | [] => Some []
  | [x] => x
  | x :: l' => pbind x (fun a => pbind (py_items l') (fun b => Some (a ++ str ", " ++ b)))
  end.
Definition py_list (l : list (option bytes)) : option bytes :=
  pbind (py_items l) (fun b => Some (str "[" ++ b ++ str "]")).

Definition size {A} (l : list A) : bytes := to_string (zlen l).

(** ** __repr__ *)

(** pymshio.cpp:17-21 *)
Definition repr_format (f : MeshFormat) : option bytes :=
  py_str (str "MeshFormat(version=" ++ version f ++ str ", file_type=" ++ to_string (file_type f) ++
          str ", data_size=" ++ to_string (data_size f) ++ str ")").

(** pymshio.cpp:31-37 *)
Definition repr_node_block (b : NodeBlock) : option bytes :=
  py_str (str "NodeBlock(entity_dim=" ++ to_string (nb_dim b) ++ str ", entity_tag=" ++ to_string (nb_tag b) ++
          str ", parametric=" ++ to_string (nb_parametric b) ++
          str ", num_nodes_in_block=" ++ to_string (nb_num b) ++ str ", tags=" ++ size (nb_tags b) ++ str ")").

(** pymshio.cpp:46-51 *)
Definition repr_nodes (n : Nodes) : option bytes :=
  py_str (str "Nodes(num_entity_blocks=" ++ to_string (n_num_blocks n) ++ str ", num_nodes=" ++ to_string (n_num_nodes n) ++
          str ", min_node_tag=" ++ to_string (n_min n) ++ str ", max_node_tag=" ++ to_string (n_max n) ++ str ")").

(** pymshio.cpp:60-65 *)
Definition repr_element_block (b : ElementBlock) : option bytes :=
  py_str (str "ElementBlock(entity_dim=" ++ to_string (eb_dim b) ++ str ", entity_tag=" ++ to_string (eb_tag b) ++
          str ", element_type=" ++ to_string (eb_type b) ++
          str ", num_elements_in_block=" ++ to_string (eb_num b) ++ str ")").

(** pymshio.cpp:74-79 *)
Definition repr_elements (e : Elements) : option bytes :=
  py_str (str "Elements(num_entity_blocks=" ++ to_string (e_num_blocks e) ++
          str ", num_elements=" ++ to_string (e_num_elements e) ++
          str ", min_element_tag=" ++ to_string (e_min e) ++ str ", max_element_tag=" ++ to_string (e_max e) ++ str ")").

(** pymshio.cpp:86-90 *)
Definition repr_header (h : DataHeader) : option bytes :=
  py_str (str "DataHeader(string_tags=" ++ size (string_tags h) ++ str ", real_tags=" ++ size (real_tags h) ++
          str ", int_tags=" ++ size (int_tags h) ++ str ")").

(** pymshio.cpp:97-101 *)
Definition repr_entry (e : DataEntry) : option bytes :=
  py_str (str "DataEntry(tag=" ++ to_string (de_tag e) ++ str ", num_nodes_per_elements=" ++ to_string (de_npe e) ++
          str ", data=" ++ size (de_data e) ++ str ")").

(** pymshio.cpp:107-112 *)
Definition repr_data (d : Data) : option bytes :=
  pbind (repr_header (d_header d)) (fun h =>
  pbind (py_list (map repr_entry (d_entries d))) (fun e =>
  py_str (str "Data(header=" ++ h ++ str ", entries=" ++ e ++ str ")"))).

(** pymshio.cpp:121-125 *)
Definition repr_point (p : PointEntity) : option bytes :=
  py_str (str "PointEntity(tag=" ++ to_string (pe_tag p) ++ str ", x=" ++ to_string_double (pe_x p) ++
          str ", y=" ++ to_string_double (pe_y p) ++ str ", z=" ++ to_string_double (pe_z p) ++
          str ", physical_group_tags=" ++ size (pe_phys p) ++ str ")").

(** pymshio.cpp:138-148 (curves), 161-171 (surfaces), 184-195 (volumes) *)
Definition repr_entity (name bnd : String.string) (e : Entity) : option bytes :=
  py_str (str name ++ str "(tag=" ++ to_string (en_tag e) ++ str ", min_x=" ++ to_string_double (en_min_x e) ++
          str ", min_y=" ++ to_string_double (en_min_y e) ++ str ", min_z=" ++ to_string_double (en_min_z e) ++
          str ", max_x=" ++ to_string_double (en_max_x e) ++ str ", max_y=" ++ to_string_double (en_max_y e) ++
          str ", max_z=" ++ to_string_double (en_max_z e) ++ str ", physical_group_tags=" ++ size (en_phys e) ++
          str ", " ++ str bnd ++ str "=" ++ size (en_bnd e) ++ str ")").

(** pymshio.cpp:204-209 *)
Definition repr_entities (e : Entities) : option bytes :=
  py_str (str "Entities(points=" ++ size (points e) ++ str ", curves=" ++ size (curves_e e) ++
          str ", surfaces=" ++ size (surfaces_e e) ++ str ", volumes=" ++ size (volumes_e e) ++ str ")").

(** pymshio.cpp:216-219 *)
Definition repr_group (g : PhysicalGroup) : option bytes :=
  py_str (str "PhysicalGroup(dim=" ++ to_string (pg_dim g) ++ str ", tag=" ++ to_string (pg_tag g) ++
          str ", name=" ++ pg_name g ++ str ")").

(** pymshio.cpp:231-252 *)
Definition repr_spec (s : MshSpec) : option bytes :=
  pbind (repr_format (mesh_format s)) (fun f =>
  pbind (repr_nodes (nodes s)) (fun n =>
  pbind (repr_elements (elements s)) (fun e =>
  pbind (repr_entities (entities s)) (fun en =>
  pbind (py_list (map repr_group (physical_groups s))) (fun g =>
  pbind (py_list (map repr_data (node_data s))) (fun nd =>
  pbind (py_list (map repr_data (element_data s))) (fun ed =>
  pbind (py_list (map repr_data (element_node_data s))) (fun end_ =>
  py_str (str "MshSpec(mesh_format=" ++ f ++ str ", nodes=" ++ n ++ str ", elements=" ++ e ++
          str ", entities=" ++ en ++ str ", physical_groups=" ++ g ++ str ", node_data=" ++ nd ++
          str ", element_data=" ++ ed ++ str ", element_node_data=" ++ end_ ++ str ")"))))))))).

(** ** Attributes *)

(** Objects of the classes of the module. *)
Inductive pyobj :=
| OFormat (f : MeshFormat) | ONodeBlock (b : NodeBlock) | ONodes (n : Nodes)
| OElementBlock (b : ElementBlock) | OElements (e : Elements) | OHeader (h : DataHeader)
| OEntry (e : DataEntry) | OData (d : Data) | OPoint (p : PointEntity) | OCurve (e : Entity)
| OSurface (e : Entity) | OVolume (e : Entity) | OEntities (e : Entities) | OGroup (g : PhysicalGroup)
| OSpec (s : MshSpec).

(** Values of attributes. *)
Inductive pyval :=
| VInt (z : Z) | VFloat (d : dbl) | VStr (b : bytes) | VObj (o : pyobj)
| VInts (l : list Z) | VFloats (l : list dbl) | VStrs (l : list bytes) | VObjs (l : list pyobj).

(** pymshio.cpp:130-137, 153-160, 176-183 *)
Definition box (bnd : String.string) (e : Entity) : list (String.string * pyval) :=
  [("tag"%string, VInt (en_tag e)); ("min_x"%string, VFloat (en_min_x e)); ("min_y"%string, VFloat (en_min_y e));
   ("min_z"%string, VFloat (en_min_z e)); ("max_x"%string, VFloat (en_max_x e));
   ("max_y"%string, VFloat (en_max_y e)); ("max_z"%string, VFloat (en_max_z e));
   ("physical_group_tags"%string, VInts (en_phys e)); (bnd, VInts (en_bnd e))].

(** The lines .def_rw of each class, in order. *)
Definition attributes (o : pyobj) : list (String.string * pyval) :=
  match o with
  | OFormat f => (* pymshio.cpp:14-16 *)
    [("version"%string, VStr (version f)); ("file_type"%string, VInt (file_type f));
     ("data_size"%string, VInt (data_size f))]
  | ONodeBlock b => (* 25-30 *)
    [("entity_dim"%string, VInt (nb_dim b)); ("entity_tag"%string, VInt (nb_tag b));
     ("parametric"%string, VInt (nb_parametric b)); ("num_nodes_in_block"%string, VInt (nb_num b));
     ("tags"%string, VInts (nb_tags b)); ("data"%string, VFloats (nb_data b))]
  | ONodes n => (* 41-45 *)
    [("num_entity_blocks"%string, VInt (n_num_blocks n)); ("num_nodes"%string, VInt (n_num_nodes n));
     ("min_node_tag"%string, VInt (n_min n)); ("max_node_tag"%string, VInt (n_max n));
     ("entity_blocks"%string, VObjs (map ONodeBlock (n_blocks n)))]
  | OElementBlock b => (* 55-59 *)
    [("entity_dim"%string, VInt (eb_dim b)); ("entity_tag"%string, VInt (eb_tag b));
     ("element_type"%string, VInt (eb_type b)); ("num_elements_in_block"%string, VInt (eb_num b));
     ("data"%string, VInts (eb_data b))]
  | OElements e => (* 69-73 *)
    [("num_entity_blocks"%string, VInt (e_num_blocks e)); ("num_elements"%string, VInt (e_num_elements e));
     ("min_element_tag"%string, VInt (e_min e)); ("max_element_tag"%string, VInt (e_max e));
     ("entity_blocks"%string, VObjs (map OElementBlock (e_blocks e)))]
  | OHeader h => (* 83-85 *)
    [("string_tags"%string, VStrs (string_tags h)); ("real_tags"%string, VFloats (real_tags h));
     ("int_tags"%string, VInts (int_tags h))]
  | OEntry e => (* 94-96 *)
    [("tag"%string, VInt (de_tag e)); ("num_nodes_per_elements"%string, VInt (de_npe e));
     ("data"%string, VFloats (de_data e))]
  | OData d => (* 105-106 *)
    [("header"%string, VObj (OHeader (d_header d))); ("entries"%string, VObjs (map OEntry (d_entries d)))]
  | OPoint p => (* 116-120 *)
    [("tag"%string, VInt (pe_tag p)); ("x"%string, VFloat (pe_x p)); ("y"%string, VFloat (pe_y p));
     ("z"%string, VFloat (pe_z p)); ("physical_group_tags"%string, VInts (pe_phys p))]
  | OCurve e => box "boundary_point_tags" e
  | OSurface e => box "boundary_curve_tags" e
  | OVolume e => box "boundary_surface_tags" e
  | OEntities e => (* 200-203 *)
    [("points"%string, VObjs (map OPoint (points e))); ("curves"%string, VObjs (map OCurve (curves_e e)));
     ("surfaces"%string, VObjs (map OSurface (surfaces_e e))); ("volumes"%string, VObjs (map OVolume (volumes_e e)))]
  | OGroup g => (* 213-215 *)
    [("dim"%string, VInt (pg_dim g)); ("tag"%string, VInt (pg_tag g)); ("name"%string, VStr (pg_name g))]
  | OSpec s => (* 223-230 *)
    [("mesh_format"%string, VObj (OFormat (mesh_format s))); ("nodes"%string, VObj (ONodes (nodes s)));
     ("elements"%string, VObj (OElements (elements s))); ("entities"%string, VObj (OEntities (entities s)));
     ("physical_groups"%string, VObjs (map OGroup (physical_groups s)));
     ("node_data"%string, VObjs (map OData (node_data s)));
     ("element_data"%string, VObjs (map OData (element_data s)));
     ("element_node_data"%string, VObjs (map OData (element_node_data s)))]
  end.

(** The first arguments of nb::class_: pymshio.cpp:12, 23, 39, 53, 67, 81, 92,
    103, 114, 127, 150, 173, 197, 211, 221 *)
Definition class_name (o : pyobj) : String.string :=
  match o with
  | OFormat _ => "MeshFormat" | ONodeBlock _ => "NodeBlock" | ONodes _ => "Nodes"
  | OElementBlock _ => "ElementBlock" | OElements _ => "Elements" | OHeader _ => "DataHeader"
  | OEntry _ => "DataEntry" | OData _ => "Data" | OPoint _ => "PointEntity" | OCurve _ => "CurveEntity"
  | OSurface _ => "SurfaceEntity" | OVolume _ => "VolumeEntity" | OEntities _ => "Entities"
  | OGroup _ => "PhysicalGroup" | OSpec _ => "MshSpec"
  end.

(** obj.__repr__() *)
Definition py_repr (o : pyobj) : option bytes :=
  match o with
  | OFormat f => repr_format f | ONodeBlock b => repr_node_block b | ONodes n => repr_nodes n
  | OElementBlock b => repr_element_block b | OElements e => repr_elements e | OHeader h => repr_header h
  | OEntry e => repr_entry e | OData d => repr_data d | OPoint p => repr_point p
  | OCurve e => repr_entity "CurveEntity" "boundary_point_tags" e
  | OSurface e => repr_entity "SurfaceEntity" "boundary_curve_tags" e
  | OVolume e => repr_entity "VolumeEntity" "boundary_surface_tags" e
  | OEntities e => repr_entities e | OGroup g => repr_group g | OSpec s => repr_spec s
  end.
