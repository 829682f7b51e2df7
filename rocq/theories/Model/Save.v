(** src/save_msh*.cpp *)

From Verif Require Export Model.LoadMsh.

(** An output computation: the bytes inserted into the stream so far and how
    it ended.  Bytes written before an exception stay written. *)
Definition W := (bytes * outcome unit)%type.
Definition wret : W := ([], Ok tt).
Definition out (b : bytes) : W := (b, Ok tt).
Definition wseq (a : W) (b : W) : W :=
  match a with
  | (x, Ok tt) => (x ++ fst b, snd b)
  | (x, r) => (x, r)
  end.
Notation "a +++ b" := (wseq a b) (at level 60, right associativity).

(** Use of a value computed without output. *)
Definition wlet {A} (o : outcome A) (f : A -> W) : W :=
  match o with
  | Ok a => f a
  | Throw e => ([], Throw e)
  | Undef u => ([], Undef u)
  | Abort => ([], Abort)
  | Diverge => ([], Diverge)
  end.

(** Range-for and counted loops. *)
Fixpoint wfor {A} (l : list A) (f : A -> W) : W :=
  match l with
  | [] => wret
  | x :: l' => f x +++ wfor l' f
  end.

Definition sp : bytes := [x20].
Definition endl : bytes := [x0a].

(** assert in the writers *)
Definition wassert (c : cfg) (b : bool) : W :=
  if ndebug c then wret else if b then wret else ([], Abort).

(** out.write(v.data(), n) for a vector of [k]-byte integers: [n] bytes is a
    multiple of [k]; reading past the end or a negative count is undefined. *)
Definition write_array (k : nat) (v : list Z) (n : Z) : W :=
  if PTRDIFF_MAX <? n then ([], Undef NegativeCount)
  else if zlen v * Z.of_nat k <? n then ([], Undef OutOfBounds)
  else out (List.concat (map (le k) (firstn (Z.to_nat (n / Z.of_nat k)) v))).

(** out << std::quoted(s) *)
Fixpoint quote_body (s : bytes) : bytes :=
  match s with
  | [] => []
  | c :: s' => if Byte.eqb c x22 || Byte.eqb c x5c then x5c :: c :: quote_body s'
               else c :: quote_body s'
  end.
Definition quoted (s : bytes) : bytes := x22 :: quote_body s ++ [x22].

(** How the stream prints doubles: [show_double] unless its precision has been
    changed (Model/Precision.v). *)
Class printer := printer_of : dbl -> bytes.
#[global] Hint Extern 100 printer => exact show_double : typeclass_instances.

Section Printer.
Context {print : printer}.

(** save_msh_format.cpp:9-19 *)
Definition save_mesh_format (s : MshSpec) : W :=
  let f := mesh_format s in
  out (str "$MeshFormat" ++ endl) +++
  out (version f ++ sp ++ show_Z (file_type f) ++ sp ++ show_Z (data_size f) ++ endl) +++
  (if file_type f =? 1 then out (le 4 1) else wret) +++
  out (str "$EndMeshFormat" ++ endl).

(** save_msh_physical_groups.cpp:11-23 *)
Definition save_physical_groups (s : MshSpec) : W :=
  out (str "$PhysicalNames" ++ endl) +++
  out (show_Z (zlen (physical_groups s)) ++ endl) +++
  wfor (physical_groups s) (fun g =>
    out (show_Z (pg_dim g) ++ sp ++ show_Z (pg_tag g) ++ sp ++ quoted (pg_name g) ++ endl)) +++
  out (str "$EndPhysicalNames" ++ endl).

(** The size and the elements, each preceded by a space, e.g.
    save_msh_entities.cpp:25-28 (without the leading space of the count). *)
Definition out_ints (l : list Z) : W :=
  out (show_Z (zlen l)) +++ wfor l (fun x => out (sp ++ show_Z x)).

(** save_msh_entities.cpp:23-29 *)
Definition save_point_ascii (p : PointEntity) : W :=
  out (show_Z (pe_tag p) ++ sp ++ print (pe_x p) ++ sp ++ print (pe_y p) ++ sp ++
       print (pe_z p) ++ sp) +++
  out_ints (pe_phys p) +++
  out endl.

(** save_msh_entities.cpp:33-44 (curves), 48-59 (surfaces), 63-74 (volumes) *)
Definition save_entity_ascii (e : Entity) : W :=
  out (show_Z (en_tag e) ++ sp ++
       print (en_min_x e) ++ sp ++ print (en_min_y e) ++ sp ++
       print (en_min_z e) ++ sp ++ print (en_max_x e) ++ sp ++
       print (en_max_y e) ++ sp ++ print (en_max_z e) ++ sp) +++
  out_ints (en_phys e) +++
  out sp +++ out_ints (en_bnd e) +++
  out endl.

(** v41::save_entities_ascii: save_msh_entities.cpp:16-76 *)
Definition v41_save_entities_ascii (en : Entities) : W :=
  out (show_Z (zlen (points en)) ++ sp ++ show_Z (zlen (curves_e en)) ++ sp ++
       show_Z (zlen (surfaces_e en)) ++ sp ++ show_Z (zlen (volumes_e en)) ++ endl) +++
  wfor (points en) save_point_ascii +++
  wfor (curves_e en) save_entity_ascii +++
  wfor (surfaces_e en) save_entity_ascii +++
  wfor (volumes_e en) save_entity_ascii.

(** Count and raw ints, e.g. save_msh_entities.cpp:96-99 *)
Definition out_ints_raw (l : list Z) : W :=
  out (le 8 (zlen l) ++ List.concat (map (le 4) l)).

(** save_msh_entities.cpp:91-100 *)
Definition save_point_binary (p : PointEntity) : W :=
  out (le 4 (pe_tag p) ++ le 8 (pe_x p) ++ le 8 (pe_y p) ++ le 8 (pe_z p)) +++
  out_ints_raw (pe_phys p).

(** save_msh_entities.cpp:103-119 (curves), 122-138 (surfaces), 141-157 (volumes) *)
Definition save_entity_binary (e : Entity) : W :=
  out (le 4 (en_tag e) ++ le 8 (en_min_x e) ++ le 8 (en_min_y e) ++ le 8 (en_min_z e) ++
       le 8 (en_max_x e) ++ le 8 (en_max_y e) ++ le 8 (en_max_z e)) +++
  out_ints_raw (en_phys e) +++
  out_ints_raw (en_bnd e).

(** v41::save_entities_binary: save_msh_entities.cpp:78-158 *)
Definition v41_save_entities_binary (en : Entities) : W :=
  out (le 8 (zlen (points en)) ++ le 8 (zlen (curves_e en)) ++
       le 8 (zlen (surfaces_e en)) ++ le 8 (zlen (volumes_e en))) +++
  wfor (points en) save_point_binary +++
  wfor (curves_e en) save_entity_binary +++
  wfor (surfaces_e en) save_entity_binary +++
  wfor (volumes_e en) save_entity_binary.

(** save_entities: save_msh_entities.cpp:162-182 *)
Definition save_entities (s : MshSpec) : W :=
  let v := version (mesh_format s) in
  if bytes_eqb v v22s then wret else
  out (str "$Entities" ++ endl) +++
  (if bytes_eqb v v41s then
     if file_type (mesh_format s) =? 0 then v41_save_entities_ascii (entities s)
     else v41_save_entities_binary (entities s)
   else ([], Throw (version_unsupported v))) +++
  out (str "$EndEntities" ++ endl).

(** save_msh_nodes.cpp:20-37 *)
Definition v41_save_node_block_ascii (b : NodeBlock) : W :=
  out (show_Z (nb_dim b) ++ sp ++ show_Z (nb_tag b) ++ sp ++ show_Z (nb_parametric b) ++ sp ++
       show_Z (nb_num b) ++ endl) +++
  wfor (iota (nb_num b)) (fun j =>
    wlet (at_ (nb_tags b) j) (fun t => out (show_Z t ++ endl))) +++
  wlet (entries_per_node (nb_parametric b) (nb_dim b)) (fun epn =>
  wfor (iota (nb_num b)) (fun j =>
    wfor (iota epn) (fun k =>
      wlet (at_ (nb_data b) (to_size (j * epn + k))) (fun x =>
      out (print x ++ (if k =? epn - 1 then endl else sp)))))).

(** v41::save_nodes_ascii: save_msh_nodes.cpp:13-39 *)
Definition v41_save_nodes_ascii (n : Nodes) : W :=
  out (show_Z (n_num_blocks n) ++ sp ++ show_Z (n_num_nodes n) ++ sp ++ show_Z (n_min n) ++ sp ++
       show_Z (n_max n) ++ endl) +++
  wfor (iota (n_num_blocks n)) (fun i =>
    wlet (at_ (n_blocks n) i) v41_save_node_block_ascii).

(** save_msh_nodes.cpp:50-63 *)
Definition v41_save_node_block_binary (b : NodeBlock) : W :=
  out (le 4 (nb_dim b) ++ le 4 (nb_tag b) ++ le 4 (nb_parametric b) ++ le 8 (nb_num b)) +++
  write_array 8 (nb_tags b) (to_size (8 * nb_num b)) +++
  wlet (entries_per_node (nb_parametric b) (nb_dim b)) (fun epn =>
  write_array 8 (nb_data b) (to_size (8 * nb_num b * epn))).

(** v41::save_nodes_binary: save_msh_nodes.cpp:41-65 *)
Definition v41_save_nodes_binary (n : Nodes) : W :=
  out (le 8 (n_num_blocks n) ++ le 8 (n_num_nodes n) ++ le 8 (n_min n) ++ le 8 (n_max n)) +++
  wfor (iota (n_num_blocks n)) (fun i =>
    wlet (at_ (n_blocks n) i) v41_save_node_block_binary).

(** save_msh_nodes.cpp:77-84 *)
Definition v22_save_node_block_ascii (b : NodeBlock) : W :=
  wlet (entries_per_node (nb_parametric b) (nb_dim b)) (fun epn =>
  wfor (iota (nb_num b)) (fun j =>
    wlet (at_ (nb_tags b) j) (fun t =>
    out (show_Z t ++ sp) +++
    wlet (at_ (nb_data b) (to_size (j * epn))) (fun x =>
    out (print x ++ sp) +++
    wlet (at_ (nb_data b) (to_size (j * epn + 1))) (fun y =>
    out (print y ++ sp) +++
    wlet (at_ (nb_data b) (to_size (j * epn + 2))) (fun z =>
    out (print z ++ endl))))))).

(** v22::save_nodes_ascii: save_msh_nodes.cpp:71-86 *)
Definition v22_save_nodes_ascii (n : Nodes) : W :=
  out (show_Z (n_num_nodes n) ++ endl) +++
  wfor (iota (n_num_blocks n)) (fun i =>
    wlet (at_ (n_blocks n) i) v22_save_node_block_ascii).

(** save_msh_nodes.cpp:94-102; the raw write of three doubles reads
    data[j*epn .. j*epn+2]. *)
Definition v22_save_node_block_binary (b : NodeBlock) : W :=
  wlet (entries_per_node (nb_parametric b) (nb_dim b)) (fun epn =>
  wfor (iota (nb_num b)) (fun j =>
    wlet (at_ (nb_tags b) j) (fun t =>
    out (le 4 t) +++
    wlet (at_ (nb_data b) (to_size (j * epn))) (fun x =>
    wlet (at_ (nb_data b) (to_size (j * epn) + 1)) (fun y =>
    wlet (at_ (nb_data b) (to_size (j * epn) + 2)) (fun z =>
    out (le 8 x ++ le 8 y ++ le 8 z))))))).

(** v22::save_nodes_binary: save_msh_nodes.cpp:88-104 *)
Definition v22_save_nodes_binary (n : Nodes) : W :=
  out (show_Z (n_num_nodes n) ++ endl) +++
  wfor (iota (n_num_blocks n)) (fun i =>
    wlet (at_ (n_blocks n) i) v22_save_node_block_binary).

(** save_nodes: save_msh_nodes.cpp:108-130 *)
Definition save_nodes (s : MshSpec) : W :=
  let v := version (mesh_format s) in
  let is_ascii := file_type (mesh_format s) =? 0 in
  out (str "$Nodes" ++ endl) +++
  (if bytes_eqb v v41s then
     if is_ascii then v41_save_nodes_ascii (nodes s) else v41_save_nodes_binary (nodes s)
   else if bytes_eqb v v22s then
     if is_ascii then v22_save_nodes_ascii (nodes s) else v22_save_nodes_binary (nodes s)
   else ([], Throw (version_unsupported v))) +++
  out (str "$EndNodes" ++ endl).

(** save_msh_elements.cpp:26-41 *)
Definition v41_save_element_block_ascii (b : ElementBlock) : W :=
  out (show_Z (eb_dim b) ++ sp ++ show_Z (eb_tag b) ++ sp ++ show_Z (eb_type b) ++ sp ++
       show_Z (eb_num b) ++ endl) +++
  wlet (nodes_per_element (eb_type b)) (fun n =>
  wfor (iota (eb_num b)) (fun j =>
    wfor (iota (n + 1)) (fun k =>
      wlet (at_ (eb_data b) (to_size (j * (n + 1) + k))) (fun x =>
      out (show_Z x ++ (if k =? n then endl else sp)))))).

(** v41::save_elements_ascii: save_msh_elements.cpp:19-43 *)
Definition v41_save_elements_ascii (e : Elements) : W :=
  out (show_Z (e_num_blocks e) ++ sp ++ show_Z (e_num_elements e) ++ sp ++ show_Z (e_min e) ++
       sp ++ show_Z (e_max e) ++ endl) +++
  wfor (iota (e_num_blocks e)) (fun i =>
    wlet (at_ (e_blocks e) i) v41_save_element_block_ascii).

(** save_msh_elements.cpp:54-62 *)
Definition v41_save_element_block_binary (b : ElementBlock) : W :=
  out (le 4 (eb_dim b) ++ le 4 (eb_tag b) ++ le 4 (eb_type b) ++ le 8 (eb_num b)) +++
  out (List.concat (map (le 8) (eb_data b))).

(** v41::save_elements_binary: save_msh_elements.cpp:45-64 *)
Definition v41_save_elements_binary (e : Elements) : W :=
  out (le 8 (e_num_blocks e) ++ le 8 (e_num_elements e) ++ le 8 (e_min e) ++ le 8 (e_max e)) +++
  wfor (iota (e_num_blocks e)) (fun i =>
    wlet (at_ (e_blocks e) i) v41_save_element_block_binary).

(** save_msh_elements.cpp:76-92 *)
Definition v22_save_element_block_ascii (b : ElementBlock) : W :=
  wlet (nodes_per_element (eb_type b)) (fun n =>
  wfor (iota (eb_num b)) (fun j =>
    wlet (at_ (eb_data b) (to_size (j * (n + 1)))) (fun id =>
    out (show_Z id ++ sp ++ show_Z (eb_type b) ++ sp ++ show_Z 1 ++ sp ++
         show_Z (eb_tag b) ++ sp) +++
    wfor (iota n) (fun k =>
      wlet (at_ (eb_data b) (to_size (j * (n + 1) + k + 1))) (fun x =>
      out (show_Z x ++ (if k =? n - 1 then endl else sp))))))).

(** v22::save_elements_ascii: save_msh_elements.cpp:70-94 *)
Definition v22_save_elements_ascii (e : Elements) : W :=
  out (show_Z (e_num_elements e) ++ endl) +++
  wfor (iota (e_num_blocks e)) (fun i =>
    wlet (at_ (e_blocks e) i) v22_save_element_block_ascii).

(** save_msh_elements.cpp:101-120 *)
Definition v22_save_element_block_binary (b : ElementBlock) : W :=
  out (le 4 (eb_type b) ++ le 4 (eb_num b) ++ le 4 1) +++
  wlet (nodes_per_element (eb_type b)) (fun n =>
  wfor (iota (eb_num b)) (fun j =>
    wlet (at_ (eb_data b) (to_size (j * (n + 1)))) (fun id =>
    out (le 4 id ++ le 4 (eb_tag b)) +++
    wfor (iota n) (fun k =>
      wlet (at_ (eb_data b) (to_size (j * (n + 1) + k + 1))) (fun x =>
      out (le 4 x)))))).

(** v22::save_elements_binary: save_msh_elements.cpp:96-122 *)
Definition v22_save_elements_binary (e : Elements) : W :=
  out (show_Z (e_num_elements e) ++ endl) +++
  wfor (iota (e_num_blocks e)) (fun i =>
    wlet (at_ (e_blocks e) i) v22_save_element_block_binary).

(** save_elements: save_msh_elements.cpp:126-147 *)
Definition save_elements (s : MshSpec) : W :=
  let v := version (mesh_format s) in
  let is_ascii := file_type (mesh_format s) =? 0 in
  out (str "$Elements" ++ endl) +++
  (if bytes_eqb v v41s then
     if is_ascii then v41_save_elements_ascii (elements s)
     else v41_save_elements_binary (elements s)
   else if bytes_eqb v v22s then
     if is_ascii then v22_save_elements_ascii (elements s)
     else v22_save_elements_binary (elements s)
   else ([], Throw (version_unsupported v))) +++
  out (str "$EndElements" ++ endl).

(** save_msh_data.cpp:21-34 *)
Definition save_data_header (h : DataHeader) : W :=
  out (show_Z (zlen (string_tags h)) ++ endl) +++
  wfor (string_tags h) (fun t => out (quoted t ++ endl)) +++
  out (show_Z (zlen (real_tags h)) ++ endl) +++
  wfor (real_tags h) (fun t => out (print t ++ endl)) +++
  out (show_Z (zlen (int_tags h)) ++ endl) +++
  wfor (int_tags h) (fun t => out (show_Z t ++ endl)).

(** save_msh_data.cpp:39-53 (4.1) and 56-65 (2.2), which write the same bytes *)
Definition save_entry_binary (end_ : bool) (e : DataEntry) : W :=
  out (le 4 (de_tag e) ++ (if end_ then le 4 (de_npe e) else []) ++
       List.concat (map (le 8) (de_data e))).

(** Doubles separated by spaces, the last followed by a newline; nothing for an
    empty list: save_msh_data.cpp:75-82 *)
Fixpoint out_doubles (l : list dbl) : bytes :=
  match l with
  | [] => []
  | [x] => print x ++ endl
  | x :: l' => print x ++ sp ++ out_doubles l'
  end.

(** save_msh_data.cpp:70-83 *)
Definition save_entry_ascii (end_ : bool) (e : DataEntry) : W :=
  out (show_Z (de_tag e) ++ sp ++ (if end_ then show_Z (de_npe e) ++ sp else []) ++
       out_doubles (de_data e)).

(** save_data: save_msh_data.cpp:15-85 *)
Definition save_data (v : bytes) (is_binary end_ : bool) (d : Data) : W :=
  save_data_header (d_header d) +++
  (if is_binary then
     if bytes_eqb v v41s then wfor (d_entries d) (save_entry_binary end_)
     else if bytes_eqb v v22s then wfor (d_entries d) (save_entry_binary end_)
     else ([], Throw (data_version_unsupported v))
   else wfor (d_entries d) (save_entry_ascii end_)).

(** save_node_data, save_element_data, save_element_node_data:
    save_msh_data.cpp:89-99, 101-111, 113-123 *)
Definition save_data_sections (name : bytes) (end_ : bool) (s : MshSpec) (ds : list Data) : W :=
  wfor ds (fun d =>
    out (str "$" ++ name ++ endl) +++
    save_data (version (mesh_format s)) (0 <? file_type (mesh_format s)) end_ d +++
    out (str "$End" ++ name ++ endl)).

Definition save_node_data (s : MshSpec) : W :=
  save_data_sections (str "NodeData") false s (node_data s).
Definition save_element_data (s : MshSpec) : W :=
  save_data_sections (str "ElementData") false s (element_data s).
Definition save_element_node_data (s : MshSpec) : W :=
  save_data_sections (str "ElementNodeData") true s (element_node_data s).

(** save_msh_nanospline_format.h:10-15 *)
Definition save_nanospline_format (s : MshSpec) : W :=
  out (str "$NanoSplineFormat" ++ endl) +++
  out (ns_version s ++ endl) +++
  out (str "$EndNanoSplineFormat" ++ endl).

(** save_msh_curves.cpp:19-43 (ASCII), 55-66 (binary) *)
Definition save_curve (c : cfg) (ascii : bool) (k : Curve) : W :=
  out (show_Z (cv_tag k) ++ sp ++ show_Z (cv_type k) ++ sp ++ show_Z (cv_degree k) ++ sp ++
       show_Z (cv_ncp k) ++ sp ++ show_Z (cv_nknots k) ++ sp ++ show_Z (cv_weights k) ++ endl) +++
  let dim := if 0 <? cv_weights k then 4 else 3 in
  let num := curve_entries (cv_ncp k) (cv_nknots k) (cv_weights k) in
  wassert c (num =? zlen (cv_data k)) +++
  if ascii then
    wfor (iota (cv_ncp k)) (fun i =>
      wfor (iota dim) (fun j =>
        wlet (at_ (cv_data k) (to_size (i * dim + j))) (fun x =>
        out (print x ++ (if j + 1 =? dim then endl else sp))))) +++
    wfor (iota (cv_nknots k)) (fun i =>
      wlet (at_ (cv_data k) (to_size (cv_ncp k * dim + i))) (fun x =>
      out (print x ++ endl)))
  else write_array 8 (cv_data k) (to_size (8 * num)).

(** save_curves: save_msh_curves.cpp:12-84; only called with the extension *)
Definition save_curves (c : cfg) (s : MshSpec) : W :=
  out (str "$Curves" ++ endl) +++
  out (show_Z (zlen (curves s)) ++ endl) +++
  wfor (curves s) (save_curve c (file_type (mesh_format s) =? 0)) +++
  out (str "$EndCurves" ++ endl).

(** save_msh_patches.cpp:18-48 (ASCII), 59-73 (binary) *)
Definition save_patch (c : cfg) (ascii : bool) (k : Patch) : W :=
  out (show_Z (pt_tag k) ++ sp ++ show_Z (pt_type k) ++ sp ++ show_Z (pt_degu k) ++ sp ++
       show_Z (pt_degv k) ++ sp ++ show_Z (pt_ncp k) ++ sp ++ show_Z (pt_nu k) ++ sp ++
       show_Z (pt_nv k) ++ sp ++ show_Z (pt_weights k) ++ endl) +++
  let dim := if 0 <? pt_weights k then 4 else 3 in
  let num := patch_entries (pt_ncp k) (pt_nu k) (pt_nv k) (pt_weights k) in
  wassert c (zlen (pt_data k) =? num) +++
  if ascii then
    wfor (iota (pt_ncp k)) (fun i =>
      wfor (iota dim) (fun j =>
        wlet (at_ (pt_data k) (to_size (i * dim + j))) (fun x =>
        out (print x ++ (if j + 1 =? dim then endl else sp))))) +++
    wfor (iota (pt_nu k)) (fun i =>
      wlet (at_ (pt_data k) (to_size (pt_ncp k * dim + i))) (fun x =>
      out (print x ++ endl))) +++
    wfor (iota (pt_nv k)) (fun i =>
      wlet (at_ (pt_data k) (to_size (pt_ncp k * dim + pt_nu k + i))) (fun x =>
      out (print x ++ endl)))
  else write_array 8 (pt_data k) (to_size (8 * num)).

(** save_patches: save_msh_patches.cpp:12-92 *)
Definition save_patches (c : cfg) (s : MshSpec) : W :=
  out (str "$Patches" ++ endl) +++
  out (show_Z (zlen (patches s)) ++ endl) +++
  wfor (patches s) (save_patch c (file_type (mesh_format s) =? 0)) +++
  out (str "$EndPatches" ++ endl).

(** Entities::empty: MshSpec.h:124-127 *)
Definition entities_empty (en : Entities) : bool :=
  (zlen (points en) =? 0) && (zlen (curves_e en) =? 0) && (zlen (surfaces_e en) =? 0)
  && (zlen (volumes_e en) =? 0).

(** save_msh(std::ostream&, spec): save_msh.cpp:18-51.  The result is what is
    handed to the stream buffer, assuming the device accepts everything (see
    Fs.v for devices that do not). *)
Definition save_msh (c : cfg) (s : MshSpec) : W :=
  save_mesh_format s +++
  (if 0 <? zlen (physical_groups s) then save_physical_groups s else wret) +++
  (if negb (entities_empty (entities s)) then save_entities s else wret) +++
  (if 0 <? n_num_nodes (nodes s) then save_nodes s else wret) +++
  (if 0 <? e_num_elements (elements s) then save_elements s else wret) +++
  (if 0 <? zlen (node_data s) then save_node_data s else wret) +++
  (if 0 <? zlen (element_data s) then save_element_data s else wret) +++
  (if 0 <? zlen (element_node_data s) then save_element_node_data s else wret) +++
  (if nanospline c then
     save_nanospline_format s +++
     (if 0 <? zlen (curves s) then save_curves c s else wret) +++
     (if 0 <? zlen (patches s) then save_patches c s else wret)
   else wret).

End Printer.
