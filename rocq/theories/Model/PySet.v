(** python/pymshio.cpp: new objects of the classes of the Python module, and
    assignments to their attributes.

    Trusted about nanobind and CPython: "o.name = v" converts [v] to the C++
    type of the member and copies it into the object; a value that cannot be
    converted raises TypeError and a name that is not an attribute raises
    AttributeError (both [None] here), and the object stays as it was.  An int
    converts to int or size_t if it is in range, a float to double, a str to
    the std::string of its UTF-8 encoding, an object to a member of its own
    class, a list to a std::vector if all of its items convert.  An attribute
    that is an object of the module is a reference into the object it belongs
    to (rv_policy::reference_internal of def_rw), so that assigning to one of its
    attributes changes the member in place.

    Simplifications: values that are converted although they are of another
    type (an int assigned to a double, tuples and other sequences) are not
    modelled; an empty list is taken to be a list of the kind the attribute
    has; items of lists are values, so that changing an item afterwards is not
    modelled. *)

From Verif Require Export Model.Python.

(** ** Conversions *)

Definition in_int (z : Z) : bool := (INT_MIN <=? z) && (z <=? INT_MAX).
Definition in_size (z : Z) : bool := (0 <=? z) && (z <=? SIZE_MAX).

Definition as_int (v : pyval) : option Z := match v with VInt z => if in_int z then Some z else None | _ => None end.
Definition as_size (v : pyval) : option Z := match v with VInt z => if in_size z then Some z else None | _ => None end.
Definition as_float (v : pyval) : option dbl := match v with VFloat d => Some d | _ => None end.
Definition as_str (v : pyval) : option bytes := match v with VStr b => py_str b | _ => None end.
Definition as_ints (v : pyval) : option (list Z) := match v with VInts l => if forallb in_int l then Some l else None | _ => None end.
Definition as_sizes (v : pyval) : option (list Z) := match v with VInts l => if forallb in_size l then Some l else None | _ => None end.
Definition as_floats (v : pyval) : option (list dbl) := match v with VFloats l => Some l | _ => None end.
Definition as_strs (v : pyval) : option (list bytes) := match v with VStrs l => if forallb utf8_ok l then Some l else None | _ => None end.

Fixpoint all_of {A} (f : pyobj -> option A) (l : list pyobj) : option (list A) :=
  match l with
  | [] => Some []
  | x :: l' => pbind (f x) (fun a => pbind (all_of f l') (fun r => Some (a :: r)))
  end.
Definition as_obj {A} (f : pyobj -> option A) (v : pyval) : option A := match v with VObj o => f o | _ => None end.
Definition as_objs {A} (f : pyobj -> option A) (v : pyval) : option (list A) := match v with VObjs l => all_of f l | _ => None end.

Definition as_format (o : pyobj) : option MeshFormat := match o with OFormat x => Some x | _ => None end.
Definition as_node_block (o : pyobj) : option NodeBlock := match o with ONodeBlock x => Some x | _ => None end.
Definition as_nodes (o : pyobj) : option Nodes := match o with ONodes x => Some x | _ => None end.
Definition as_element_block (o : pyobj) : option ElementBlock := match o with OElementBlock x => Some x | _ => None end.
Definition as_elements (o : pyobj) : option Elements := match o with OElements x => Some x | _ => None end.
Definition as_header (o : pyobj) : option DataHeader := match o with OHeader x => Some x | _ => None end.
Definition as_entry (o : pyobj) : option DataEntry := match o with OEntry x => Some x | _ => None end.
Definition as_data (o : pyobj) : option Data := match o with OData x => Some x | _ => None end.
Definition as_point (o : pyobj) : option PointEntity := match o with OPoint x => Some x | _ => None end.
Definition as_curve (o : pyobj) : option Entity := match o with OCurve x => Some x | _ => None end.
Definition as_surface (o : pyobj) : option Entity := match o with OSurface x => Some x | _ => None end.
Definition as_volume (o : pyobj) : option Entity := match o with OVolume x => Some x | _ => None end.
Definition as_entities (o : pyobj) : option Entities := match o with OEntities x => Some x | _ => None end.
Definition as_group (o : pyobj) : option PhysicalGroup := match o with OGroup x => Some x | _ => None end.

(** ** Assignments *)

Definition setter := (String.string * (pyval -> option pyobj))%type.

(** The setters of the .def_rw lines: pymshio.cpp:129-137, 152-160, 175-183 *)
Definition box_setters (mk : Entity -> pyobj) (bnd : String.string) (x : Entity) : list setter :=
    [("tag"%string, fun v => pbind (as_int v) (fun y => Some (mk {| en_tag := y; en_min_x := en_min_x x; en_min_y := en_min_y x; en_min_z := en_min_z x; en_max_x := en_max_x x; en_max_y := en_max_y x; en_max_z := en_max_z x; en_phys := en_phys x; en_bnd := en_bnd x |})));
     ("min_x"%string, fun v => pbind (as_float v) (fun y => Some (mk {| en_tag := en_tag x; en_min_x := y; en_min_y := en_min_y x; en_min_z := en_min_z x; en_max_x := en_max_x x; en_max_y := en_max_y x; en_max_z := en_max_z x; en_phys := en_phys x; en_bnd := en_bnd x |})));
     ("min_y"%string, fun v => pbind (as_float v) (fun y => Some (mk {| en_tag := en_tag x; en_min_x := en_min_x x; en_min_y := y; en_min_z := en_min_z x; en_max_x := en_max_x x; en_max_y := en_max_y x; en_max_z := en_max_z x; en_phys := en_phys x; en_bnd := en_bnd x |})));
     ("min_z"%string, fun v => pbind (as_float v) (fun y => Some (mk {| en_tag := en_tag x; en_min_x := en_min_x x; en_min_y := en_min_y x; en_min_z := y; en_max_x := en_max_x x; en_max_y := en_max_y x; en_max_z := en_max_z x; en_phys := en_phys x; en_bnd := en_bnd x |})));
     ("max_x"%string, fun v => pbind (as_float v) (fun y => Some (mk {| en_tag := en_tag x; en_min_x := en_min_x x; en_min_y := en_min_y x; en_min_z := en_min_z x; en_max_x := y; en_max_y := en_max_y x; en_max_z := en_max_z x; en_phys := en_phys x; en_bnd := en_bnd x |})));
     ("max_y"%string, fun v => pbind (as_float v) (fun y => Some (mk {| en_tag := en_tag x; en_min_x := en_min_x x; en_min_y := en_min_y x; en_min_z := en_min_z x; en_max_x := en_max_x x; en_max_y := y; en_max_z := en_max_z x; en_phys := en_phys x; en_bnd := en_bnd x |})));
     ("max_z"%string, fun v => pbind (as_float v) (fun y => Some (mk {| en_tag := en_tag x; en_min_x := en_min_x x; en_min_y := en_min_y x; en_min_z := en_min_z x; en_max_x := en_max_x x; en_max_y := en_max_y x; en_max_z := y; en_phys := en_phys x; en_bnd := en_bnd x |})));
     ("physical_group_tags"%string, fun v => pbind (as_ints v) (fun y => Some (mk {| en_tag := en_tag x; en_min_x := en_min_x x; en_min_y := en_min_y x; en_min_z := en_min_z x; en_max_x := en_max_x x; en_max_y := en_max_y x; en_max_z := en_max_z x; en_phys := y; en_bnd := en_bnd x |})));
     (bnd, fun v => pbind (as_ints v) (fun y => Some (mk {| en_tag := en_tag x; en_min_x := en_min_x x; en_min_y := en_min_y x; en_min_z := en_min_z x; en_max_x := en_max_x x; en_max_y := en_max_y x; en_max_z := en_max_z x; en_phys := en_phys x; en_bnd := y |})))].

Definition setters (o : pyobj) : list setter :=
  match o with
  | OFormat x => (* 14-16 *)
    [("version"%string, fun v => pbind (as_str v) (fun y => Some (OFormat {| version := y; file_type := file_type x; data_size := data_size x |})));
     ("file_type"%string, fun v => pbind (as_int v) (fun y => Some (OFormat {| version := version x; file_type := y; data_size := data_size x |})));
     ("data_size"%string, fun v => pbind (as_int v) (fun y => Some (OFormat {| version := version x; file_type := file_type x; data_size := y |})))]
  | ONodeBlock x => (* 25-30 *)
    [("entity_dim"%string, fun v => pbind (as_int v) (fun y => Some (ONodeBlock {| nb_dim := y; nb_tag := nb_tag x; nb_parametric := nb_parametric x; nb_num := nb_num x; nb_tags := nb_tags x; nb_data := nb_data x |})));
     ("entity_tag"%string, fun v => pbind (as_int v) (fun y => Some (ONodeBlock {| nb_dim := nb_dim x; nb_tag := y; nb_parametric := nb_parametric x; nb_num := nb_num x; nb_tags := nb_tags x; nb_data := nb_data x |})));
     ("parametric"%string, fun v => pbind (as_int v) (fun y => Some (ONodeBlock {| nb_dim := nb_dim x; nb_tag := nb_tag x; nb_parametric := y; nb_num := nb_num x; nb_tags := nb_tags x; nb_data := nb_data x |})));
     ("num_nodes_in_block"%string, fun v => pbind (as_size v) (fun y => Some (ONodeBlock {| nb_dim := nb_dim x; nb_tag := nb_tag x; nb_parametric := nb_parametric x; nb_num := y; nb_tags := nb_tags x; nb_data := nb_data x |})));
     ("tags"%string, fun v => pbind (as_sizes v) (fun y => Some (ONodeBlock {| nb_dim := nb_dim x; nb_tag := nb_tag x; nb_parametric := nb_parametric x; nb_num := nb_num x; nb_tags := y; nb_data := nb_data x |})));
     ("data"%string, fun v => pbind (as_floats v) (fun y => Some (ONodeBlock {| nb_dim := nb_dim x; nb_tag := nb_tag x; nb_parametric := nb_parametric x; nb_num := nb_num x; nb_tags := nb_tags x; nb_data := y |})))]
  | ONodes x => (* 41-45 *)
    [("num_entity_blocks"%string, fun v => pbind (as_size v) (fun y => Some (ONodes {| n_num_blocks := y; n_num_nodes := n_num_nodes x; n_min := n_min x; n_max := n_max x; n_blocks := n_blocks x |})));
     ("num_nodes"%string, fun v => pbind (as_size v) (fun y => Some (ONodes {| n_num_blocks := n_num_blocks x; n_num_nodes := y; n_min := n_min x; n_max := n_max x; n_blocks := n_blocks x |})));
     ("min_node_tag"%string, fun v => pbind (as_size v) (fun y => Some (ONodes {| n_num_blocks := n_num_blocks x; n_num_nodes := n_num_nodes x; n_min := y; n_max := n_max x; n_blocks := n_blocks x |})));
     ("max_node_tag"%string, fun v => pbind (as_size v) (fun y => Some (ONodes {| n_num_blocks := n_num_blocks x; n_num_nodes := n_num_nodes x; n_min := n_min x; n_max := y; n_blocks := n_blocks x |})));
     ("entity_blocks"%string, fun v => pbind (as_objs as_node_block v) (fun y => Some (ONodes {| n_num_blocks := n_num_blocks x; n_num_nodes := n_num_nodes x; n_min := n_min x; n_max := n_max x; n_blocks := y |})))]
  | OElementBlock x => (* 55-59 *)
    [("entity_dim"%string, fun v => pbind (as_int v) (fun y => Some (OElementBlock {| eb_dim := y; eb_tag := eb_tag x; eb_type := eb_type x; eb_num := eb_num x; eb_data := eb_data x |})));
     ("entity_tag"%string, fun v => pbind (as_int v) (fun y => Some (OElementBlock {| eb_dim := eb_dim x; eb_tag := y; eb_type := eb_type x; eb_num := eb_num x; eb_data := eb_data x |})));
     ("element_type"%string, fun v => pbind (as_int v) (fun y => Some (OElementBlock {| eb_dim := eb_dim x; eb_tag := eb_tag x; eb_type := y; eb_num := eb_num x; eb_data := eb_data x |})));
     ("num_elements_in_block"%string, fun v => pbind (as_size v) (fun y => Some (OElementBlock {| eb_dim := eb_dim x; eb_tag := eb_tag x; eb_type := eb_type x; eb_num := y; eb_data := eb_data x |})));
     ("data"%string, fun v => pbind (as_sizes v) (fun y => Some (OElementBlock {| eb_dim := eb_dim x; eb_tag := eb_tag x; eb_type := eb_type x; eb_num := eb_num x; eb_data := y |})))]
  | OElements x => (* 69-73 *)
    [("num_entity_blocks"%string, fun v => pbind (as_size v) (fun y => Some (OElements {| e_num_blocks := y; e_num_elements := e_num_elements x; e_min := e_min x; e_max := e_max x; e_blocks := e_blocks x |})));
     ("num_elements"%string, fun v => pbind (as_size v) (fun y => Some (OElements {| e_num_blocks := e_num_blocks x; e_num_elements := y; e_min := e_min x; e_max := e_max x; e_blocks := e_blocks x |})));
     ("min_element_tag"%string, fun v => pbind (as_size v) (fun y => Some (OElements {| e_num_blocks := e_num_blocks x; e_num_elements := e_num_elements x; e_min := y; e_max := e_max x; e_blocks := e_blocks x |})));
     ("max_element_tag"%string, fun v => pbind (as_size v) (fun y => Some (OElements {| e_num_blocks := e_num_blocks x; e_num_elements := e_num_elements x; e_min := e_min x; e_max := y; e_blocks := e_blocks x |})));
     ("entity_blocks"%string, fun v => pbind (as_objs as_element_block v) (fun y => Some (OElements {| e_num_blocks := e_num_blocks x; e_num_elements := e_num_elements x; e_min := e_min x; e_max := e_max x; e_blocks := y |})))]
  | OHeader x => (* 83-85 *)
    [("string_tags"%string, fun v => pbind (as_strs v) (fun y => Some (OHeader {| string_tags := y; real_tags := real_tags x; int_tags := int_tags x |})));
     ("real_tags"%string, fun v => pbind (as_floats v) (fun y => Some (OHeader {| string_tags := string_tags x; real_tags := y; int_tags := int_tags x |})));
     ("int_tags"%string, fun v => pbind (as_ints v) (fun y => Some (OHeader {| string_tags := string_tags x; real_tags := real_tags x; int_tags := y |})))]
  | OEntry x => (* 94-96 *)
    [("tag"%string, fun v => pbind (as_size v) (fun y => Some (OEntry {| de_tag := y; de_npe := de_npe x; de_data := de_data x |})));
     ("num_nodes_per_elements"%string, fun v => pbind (as_int v) (fun y => Some (OEntry {| de_tag := de_tag x; de_npe := y; de_data := de_data x |})));
     ("data"%string, fun v => pbind (as_floats v) (fun y => Some (OEntry {| de_tag := de_tag x; de_npe := de_npe x; de_data := y |})))]
  | OData x => (* 105-106 *)
    [("header"%string, fun v => pbind (as_obj as_header v) (fun y => Some (OData {| d_header := y; d_entries := d_entries x |})));
     ("entries"%string, fun v => pbind (as_objs as_entry v) (fun y => Some (OData {| d_header := d_header x; d_entries := y |})))]
  | OPoint x => (* 116-120 *)
    [("tag"%string, fun v => pbind (as_int v) (fun y => Some (OPoint {| pe_tag := y; pe_x := pe_x x; pe_y := pe_y x; pe_z := pe_z x; pe_phys := pe_phys x |})));
     ("x"%string, fun v => pbind (as_float v) (fun y => Some (OPoint {| pe_tag := pe_tag x; pe_x := y; pe_y := pe_y x; pe_z := pe_z x; pe_phys := pe_phys x |})));
     ("y"%string, fun v => pbind (as_float v) (fun y => Some (OPoint {| pe_tag := pe_tag x; pe_x := pe_x x; pe_y := y; pe_z := pe_z x; pe_phys := pe_phys x |})));
     ("z"%string, fun v => pbind (as_float v) (fun y => Some (OPoint {| pe_tag := pe_tag x; pe_x := pe_x x; pe_y := pe_y x; pe_z := y; pe_phys := pe_phys x |})));
     ("physical_group_tags"%string, fun v => pbind (as_ints v) (fun y => Some (OPoint {| pe_tag := pe_tag x; pe_x := pe_x x; pe_y := pe_y x; pe_z := pe_z x; pe_phys := y |})))]
  | OCurve x => box_setters OCurve "boundary_point_tags" x (* 129-137 *)
  | OSurface x => box_setters OSurface "boundary_curve_tags" x (* 152-160 *)
  | OVolume x => box_setters OVolume "boundary_surface_tags" x (* 175-183 *)
  | OEntities x => (* 200-203 *)
    [("points"%string, fun v => pbind (as_objs as_point v) (fun y => Some (OEntities {| points := y; curves_e := curves_e x; surfaces_e := surfaces_e x; volumes_e := volumes_e x |})));
     ("curves"%string, fun v => pbind (as_objs as_curve v) (fun y => Some (OEntities {| points := points x; curves_e := y; surfaces_e := surfaces_e x; volumes_e := volumes_e x |})));
     ("surfaces"%string, fun v => pbind (as_objs as_surface v) (fun y => Some (OEntities {| points := points x; curves_e := curves_e x; surfaces_e := y; volumes_e := volumes_e x |})));
     ("volumes"%string, fun v => pbind (as_objs as_volume v) (fun y => Some (OEntities {| points := points x; curves_e := curves_e x; surfaces_e := surfaces_e x; volumes_e := y |})))]
  | OGroup x => (* 213-215 *)
    [("dim"%string, fun v => pbind (as_int v) (fun y => Some (OGroup {| pg_dim := y; pg_tag := pg_tag x; pg_name := pg_name x |})));
     ("tag"%string, fun v => pbind (as_int v) (fun y => Some (OGroup {| pg_dim := pg_dim x; pg_tag := y; pg_name := pg_name x |})));
     ("name"%string, fun v => pbind (as_str v) (fun y => Some (OGroup {| pg_dim := pg_dim x; pg_tag := pg_tag x; pg_name := y |})))]
  | OSpec x => (* 223-230 *)
    [("mesh_format"%string, fun v => pbind (as_obj as_format v) (fun y => Some (OSpec (set_format y x))));
     ("nodes"%string, fun v => pbind (as_obj as_nodes v) (fun y => Some (OSpec (set_nodes y x))));
     ("elements"%string, fun v => pbind (as_obj as_elements v) (fun y => Some (OSpec (set_elements y x))));
     ("entities"%string, fun v => pbind (as_obj as_entities v) (fun y => Some (OSpec (set_entities y x))));
     ("physical_groups"%string, fun v => pbind (as_objs as_group v) (fun y => Some (OSpec (set_physical_groups y x))));
     ("node_data"%string, fun v => pbind (as_objs as_data v) (fun y => Some (OSpec (set_node_data y x))));
     ("element_data"%string, fun v => pbind (as_objs as_data v) (fun y => Some (OSpec (set_element_data y x))));
     ("element_node_data"%string, fun v => pbind (as_objs as_data v) (fun y => Some (OSpec (set_element_node_data y x))))]
  end.

Fixpoint find_setter (name : String.string) (l : list setter) : option (pyval -> option pyobj) :=
  match l with
  | [] => None
  | (n, f) :: l' => if String.eqb n name then Some f else find_setter name l'
  end.

(** o.name = v *)
Definition set_attr (o : pyobj) (name : String.string) (v : pyval) : option pyobj :=
  pbind (find_setter name (setters o)) (fun f => f v).

(** o.name *)
Fixpoint find_value (name : String.string) (l : list (String.string * pyval)) : option pyval :=
  match l with
  | [] => None
  | (n, v) :: l' => if String.eqb n name then Some v else find_value name l'
  end.
Definition get_attr (o : pyobj) (name : String.string) : option pyval := find_value name (attributes o).

(** o.m1.m2...name = v *)
Fixpoint set_path (o : pyobj) (ms : list String.string) (name : String.string) (v : pyval) : option pyobj :=
  match ms with
  | [] => set_attr o name v
  | m :: ms' =>
    match get_attr o m with
    | Some (VObj x) => pbind (set_path x ms' name v) (fun x' => set_attr o m (VObj x'))
    | _ => None
    end
  end.

(** ** New objects *)

Fixpoint find_new (cls : String.string) (l : list (String.string * pyobj)) : option pyobj :=
  match l with
  | [] => None
  | (n, o) :: l' => if String.eqb n cls then Some o else find_new cls l'
  end.

(** The lines .def(nb::init<>()): pymshio.cpp:13, 24, 40, 54, 68, 82, 93, 104,
    115, 128, 151, 174, 198, 212, 222; the values are the default member
    initialisers of MshSpec.h. *)
Definition new (cls : String.string) : option pyobj :=
  find_new cls
    [("MeshFormat"%string, OFormat mf_default); ("NodeBlock"%string, ONodeBlock nb_default); ("Nodes"%string, ONodes n_default);
     ("ElementBlock"%string, OElementBlock eb_default); ("Elements"%string, OElements e_default);
     ("DataHeader"%string, OHeader dh_default); ("DataEntry"%string, OEntry de_default); ("Data"%string, OData d_default);
     ("PointEntity"%string, OPoint pe_default); ("CurveEntity"%string, OCurve en_default);
     ("SurfaceEntity"%string, OSurface en_default); ("VolumeEntity"%string, OVolume en_default);
     ("Entities"%string, OEntities ents_default); ("PhysicalGroup"%string, OGroup pg_default);
     ("MshSpec"%string, OSpec spec_default)].

(** Entities.empty() (pymshio.cpp:199, MshSpec.h:124-127) is [entities_empty] of [Model.Save]. *)
