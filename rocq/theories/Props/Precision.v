(** C64: saving to a stream with a precision of 17 or more loses nothing. *)

From Verif Require Import Model.Save Model.Precision Spec.Consistent Spec.Consistent22 Tests.Examples Tests.ExamplesRt22
  Proofs.PrecP Proofs.PrecRt.

Theorem C64_exact41 : forall p c s, 17 <= p -> consistent41 c true s ->
  exists b s', save_prec p c s = (b, Ok tt) /\ load_msh c b = Ok s' /\
    mesh_format s' = mesh_format s /\
    (n_num_nodes (nodes s) <> 0 -> nodes s' = nodes s) /\
    (e_num_elements (elements s) <> 0 -> elements s' = elements s) /\
    entities s' = entities s /\ physical_groups s' = physical_groups s /\
    node_data s' = node_data s /\ element_data s' = element_data s /\ element_node_data s' = element_node_data s /\
    (nanospline c = true -> ns_version s' = ns_version s /\ curves s' = curves s /\ patches s' = patches s).
Proof. exact exact41. Qed.
Print Assumptions C64_exact41.

Example C64_exact41_ex : consistent41 c_debug true (ex_spec (str "4.1") true) /\
  n_num_nodes (nodes (ex_spec (str "4.1") true)) <> 0 /\ e_num_elements (elements (ex_spec (str "4.1") true)) <> 0.
Proof. split; [exact (ex_spec_41 false true)|]. split; discriminate. Qed.

Theorem C64_exact22 : forall p c s, 17 <= p -> consistent22 c true s ->
  exists b s', save_prec p c s = (b, Ok tt) /\ load_msh c b = Ok s' /\ kept22 c true (fun x => x) s s'.
Proof. exact exact22. Qed.
Print Assumptions C64_exact22.

Example C64_exact22_ex : consistent22 c_release true (ex_spec (str "2.2") true).
Proof. exact (ex_spec_22 true true). Qed.

(** One number: what is printed with 17 digits or more is read as what it was. *)
Theorem C64_number : forall p x b, 17 <= p -> size_ok x -> finite x ->
  match b with c :: _ => is_ws c = true | [] => False end ->
  extract_double (show_prec p x ++ b) = (x, false, b).
Proof. exact number_exact. Qed.
Print Assumptions C64_number.

Example C64_number_ex : size_ok d13 /\ finite d13 /\ show_prec 17 d13 = str "0.33333333333333331" /\ show_double d13 = str "0.333333".
Proof. split; [split; [discriminate|reflexivity]|]. split; [discriminate|]. split; vm_compute; reflexivity. Qed.

(** A new stream has precision 6. *)
Theorem C64_six : forall x, size_ok x -> show_prec 6 x = show_double x.
Proof. exact show_prec_six. Qed.
Print Assumptions C64_six.

(** 16 digits or fewer are not enough: different nodes give the same file, *)
Theorem C64_needed : exists c s1 s2, consistent41 c true s1 /\ consistent41 c true s2 /\ nodes s1 <> nodes s2 /\
  forall p, p <= 16 -> save_prec p c s1 = save_prec p c s2.
Proof. exact needed. Qed.
Print Assumptions C64_needed.

(** and the loader may not come back from a file. *)
Theorem C64_unreadable : exists c s b,
  consistent41 c true s /\ save_prec 16 c s = (b, Ok tt) /\ load_msh c b = Diverge.
Proof. exact unreadable. Qed.
Print Assumptions C64_unreadable.
