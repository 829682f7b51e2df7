(** Assignments to attributes of Python objects. *)

From Verif Require Export Spec.Python Spec.Ranges Model.PySet.

(** ** Types of members, after include/mshio/MshSpec.h *)

Inductive kind :=
| KInt | KSize | KFloat | KStr | KInts | KSizes | KFloats | KStrs
| KObj (cls : String.string) | KObjs (cls : String.string).

Local Open Scope string_scope.

Definition members (cls : String.string) : list (String.string * kind) :=
  if String.eqb cls "MeshFormat" then [("version", KStr); ("file_type", KInt); ("data_size", KInt)]
  else if String.eqb cls "NodeBlock" then
    [("entity_dim", KInt); ("entity_tag", KInt); ("parametric", KInt); ("num_nodes_in_block", KSize); ("tags", KSizes); ("data", KFloats)]
  else if String.eqb cls "Nodes" then
    [("num_entity_blocks", KSize); ("num_nodes", KSize); ("min_node_tag", KSize); ("max_node_tag", KSize); ("entity_blocks", KObjs "NodeBlock")]
  else if String.eqb cls "ElementBlock" then
    [("entity_dim", KInt); ("entity_tag", KInt); ("element_type", KInt); ("num_elements_in_block", KSize); ("data", KSizes)]
  else if String.eqb cls "Elements" then
    [("num_entity_blocks", KSize); ("num_elements", KSize); ("min_element_tag", KSize); ("max_element_tag", KSize);
     ("entity_blocks", KObjs "ElementBlock")]
  else if String.eqb cls "DataHeader" then [("string_tags", KStrs); ("real_tags", KFloats); ("int_tags", KInts)]
  else if String.eqb cls "DataEntry" then [("tag", KSize); ("num_nodes_per_elements", KInt); ("data", KFloats)]
  else if String.eqb cls "Data" then [("header", KObj "DataHeader"); ("entries", KObjs "DataEntry")]
  else if String.eqb cls "PointEntity" then
    [("tag", KInt); ("x", KFloat); ("y", KFloat); ("z", KFloat); ("physical_group_tags", KInts)]
  else if String.eqb cls "CurveEntity" || String.eqb cls "SurfaceEntity" || String.eqb cls "VolumeEntity" then
    [("tag", KInt); ("min_x", KFloat); ("min_y", KFloat); ("min_z", KFloat); ("max_x", KFloat); ("max_y", KFloat); ("max_z", KFloat);
     ("physical_group_tags", KInts);
     (if String.eqb cls "CurveEntity" then "boundary_point_tags"
      else if String.eqb cls "SurfaceEntity" then "boundary_curve_tags" else "boundary_surface_tags", KInts)]
  else if String.eqb cls "Entities" then
    [("points", KObjs "PointEntity"); ("curves", KObjs "CurveEntity"); ("surfaces", KObjs "SurfaceEntity"); ("volumes", KObjs "VolumeEntity")]
  else if String.eqb cls "PhysicalGroup" then [("dim", KInt); ("tag", KInt); ("name", KStr)]
  else if String.eqb cls "MshSpec" then
    [("mesh_format", KObj "MeshFormat"); ("nodes", KObj "Nodes"); ("elements", KObj "Elements"); ("entities", KObj "Entities");
     ("physical_groups", KObjs "PhysicalGroup"); ("node_data", KObjs "Data"); ("element_data", KObjs "Data"); ("element_node_data", KObjs "Data")]
  else [].

Local Close Scope string_scope.

(** Values a member of a type can hold. *)
Definition holds (k : kind) (v : pyval) : Prop :=
  match k, v with
  | KInt, VInt z => int_ok z
  | KSize, VInt z => size_ok z
  | KFloat, VFloat _ => True
  | KStr, VStr b => utf8 b
  | KInts, VInts l => Forall int_ok l
  | KSizes, VInts l => Forall size_ok l
  | KFloats, VFloats _ => True
  | KStrs, VStrs l => Forall utf8 l
  | KObj cls, VObj o => class_name o = cls
  | KObjs cls, VObjs l => Forall (fun o => class_name o = cls) l
  | _, _ => False
  end.

(** The attribute exists and can hold the value. *)
Definition accepts (o : pyobj) (name : String.string) (v : pyval) : Prop :=
  exists k, In (name, k) (members (class_name o)) /\ holds k v.

(** ** What an assignment changes *)

(** The members that Python does not see. *)
Definition unseen (o : pyobj) : bytes * list Curve * list Patch :=
  match o with OSpec s => (ns_version s, curves s, patches s) | _ => ([], [], []) end.

Definition replaced (name : String.string) (v : pyval) (a : String.string * pyval) : String.string * pyval :=
  if String.eqb (fst a) name then (fst a, v) else a.

(** [o'] is [o] except that the attribute has the value [v]. *)
Record assigned (o : pyobj) (name : String.string) (v : pyval) (o' : pyobj) : Prop := {
  as_class : class_name o' = class_name o;
  as_attributes : attributes o' = map (replaced name v) (attributes o);
  as_unseen : unseen o' = unseen o }.

(** A spec without splines. *)
Definition plain_spec (o : pyobj) : Prop :=
  match o with OSpec s => ns_version s = str "1.0" /\ curves s = [] /\ patches s = [] | _ => True end.

(** ** New objects *)

(** Zero and empty, except for two members of MeshFormat. *)
Definition initial (cls name : String.string) (v : pyval) : Prop :=
  if String.eqb cls "MeshFormat" && String.eqb name "version" then v = VStr (str "4.1")
  else if String.eqb cls "MeshFormat" && String.eqb name "data_size" then v = VInt 8
  else match v with
       | VInt z => z = 0 | VFloat d => d = 0 | VStr b => b = [] | VInts l => l = [] | VFloats l => l = []
       | VStrs l => l = [] | VObjs l => l = [] | VObj _ => True
       end.

Inductive fresh (o : pyobj) : Prop :=
| fresh_intro : (forall name v, In (name, v) (attributes o) -> initial (class_name o) name v) ->
    (forall name x, In (name, VObj x) (attributes o) -> fresh x) -> fresh o.

(** ** Objects that Python code can make *)

Definition objects (v : pyval) : list pyobj := match v with VObj o => [o] | VObjs l => l | _ => [] end.

Inductive made : pyobj -> Prop :=
| made_new : forall cls o, new cls = Some o -> made o
| made_set : forall o name v o', made o -> (forall x, In x (objects v) -> made x) -> set_attr o name v = Some o' -> made o'.

(** All members, and theirs, hold values of their types. *)
Inductive typed (o : pyobj) : Prop :=
| typed_intro : (forall name v, In (name, v) (attributes o) -> accepts o name v) ->
    (forall name v x, In (name, v) (attributes o) -> In x (objects v) -> typed x) -> typed o.
