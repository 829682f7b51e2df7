(** Small files for msh_inspect. *)

From Verif Require Import Model.Inspect Model.Validate Spec.Report Tests.Examples.

Definition file_41 (l : list string) : bytes :=
  flat_map (fun s => str s ++ [x0a]) (["$MeshFormat"%string; "4.1 0 8"%string; "$EndMeshFormat"%string] ++ l).

(** One node on a point entity, called parametric: no parameters follow. *)
Definition on_point : bytes := file_41
  ["$Nodes"; "1 1 1 1"; "0 1 1 1"; "1"; "0 0 0"; "$EndNodes"]%string.

(** Two nodes on a surface, each with two parameters. *)
Definition on_surface : bytes := file_41
  ["$Nodes"; "1 2 1 2"; "2 1 1 2"; "1"; "2"; "0 0 0 0 0"; "0 0 0 0 0"; "$EndNodes"]%string.

(** No data, at time step 1000000. *)
Definition late_step : bytes := file_41
  ["$NodeData"; "0"; "0"; "3"; "1000000"; "0"; "0"; "$EndNodeData"]%string.

(** A curve with a node and its parameter, two more nodes, a triangle, data. *)
Definition plain_file : bytes := file_41
  ["$PhysicalNames"; "1"; "1 2 ""a b"""; "$EndPhysicalNames";
   "$Entities"; "1 1 0 0"; "4 0 0 0 0"; "7 0 0 0 0 0 0 1 2 2 4 4"; "$EndEntities";
   "$Nodes"; "2 3 1 3"; "1 7 1 1"; "1"; "0 0 0 0"; "2 1 0 2"; "2"; "3"; "0 0 0"; "0 0 0"; "$EndNodes";
   "$Elements"; "1 1 5 5"; "2 1 2 1"; "5 1 2 3"; "$EndElements";
   "$NodeData"; "1"; """f"""; "0"; "3"; "12"; "2"; "2"; "1 0 0"; "3 0 0"; "$EndNodeData"]%string.

Definition plain_report : list string :=
  ["sizeof(int): 4"; "sizeof(size_t) 8"; "sizeof(double) 8";
   "Num point entities: 1"; "  entity tag: 4"; "  entity coordinates: 0 0 0"; "  Num physical groups: 0";
   "Num curve entities: 1"; "  entity tag: 7"; "  bounding box min: 0 0 0"; "  bounding box max: 0 0 0";
   "  Num physical groups: 1"; "    2 "; "  Num boundary points: 2"; "    4 4 ";
   "Num surface entities: 0"; "Num volume entities: 0";
   "Num physical groups: 1"; "  group dim: 1"; "  group tag: 2"; "  group name: ""a b""";
   "Num nodes: 3"; "Num node blocks: 2"; "min node tag: 1"; "max node tag: 3";
   "  entity dim: 1"; "  entity tag: 7"; "  parametric: 1"; "  num nodes in block: 1"; "    1: 0 0 0 0 ";
   "  entity dim: 2"; "  entity tag: 1"; "  parametric: 0"; "  num nodes in block: 2"; "    2: 0 0 0 "; "    3: 0 0 0 ";
   "Num elements: 1"; "Num element blocks: 1"; "min element tag: 5"; "max element tag: 5";
   "  entity dim: 2"; "  entity tag: 1"; "  entity type: 2"; "  num elements in block: 1"; "    5: 1 2 3 ";
   "Node data: "; "Num string tags: 1"; """f"" "; "Num real tags: 0"; ""; "Num int tags: 3"; "12 2 2 ";
   "  1: 0 0 "; "  3: 0 0 "]%string.
