(** src/validate_spec.cpp *)

From Verif Require Export Model.Post.

(** The ASSERT lambda: validate_spec.cpp:13-17 *)
Definition ASSERT (b : bool) (msg : string) : outcome unit := if b then Ok tt else Throw (CorruptData (str msg)).

(** [x ;; y] on outcomes. *)
Definition oseq {A} (x : outcome unit) (y : outcome A) : outcome A := obind x (fun _ => y).

(** A loop of checks. *)
Fixpoint ofor {A} (f : A -> outcome unit) (l : list A) : outcome unit :=
  match l with
  | [] => Ok tt
  | x :: l' => oseq (f x) (ofor f l')
  end.

(** validate_spec.cpp:29-42 *)
Definition validate_node_block (n : Nodes) (b : NodeBlock) : outcome unit :=
  oseq (ASSERT (zlen (nb_tags b) =? nb_num b) "Inconsist number of node tags.")
  (oseq (ofor (fun j =>
           obind (at_ (nb_tags b) j) (fun t =>
           oseq (ASSERT (n_min n <=? t) "Node tag < min node tag.") (ASSERT (t <=? n_max n) "Node tag > max node tag."))) (iota (nb_num b)))
  (if 0 <? nb_parametric b then
     if INT_MAX <? 3 + nb_dim b then Undef SignedOverflow else
     ASSERT (zlen (nb_data b) =? to_size (nb_num b * to_size (3 + nb_dim b))) "Invalide node data size."
   else ASSERT (zlen (nb_data b) =? to_size (nb_num b * 3)) "Invalid node data size.")).

(** validate_spec.cpp:46-57 *)
Definition validate_element_block (n : Nodes) (e : Elements) (b : ElementBlock) : outcome unit :=
  if eb_num b =? 0 then Undef DivByZero else
  let epe := zlen (eb_data b) / eb_num b in
  if epe =? 0 then Undef DivByZero else
  oseq (ASSERT (zlen (eb_data b) mod epe =? 0) "Invalid element data size.")
  (ofor (fun j =>
     obind (at_ (eb_data b) j) (fun x =>
     if j mod epe =? 0 then oseq (ASSERT (e_min e <=? x) "Element tag < min element tag.") (ASSERT (x <=? e_max e) "Element tag > max element tag.")
     else oseq (ASSERT (n_min n <=? x) "Node tag in element < min node tag.") (ASSERT (x <=? n_max n) "Node tag in element > max node tag."))) (iota (zlen (eb_data b)))).

(** validate_spec: validate_spec.cpp:8-59 *)
Definition validate_spec (s : MshSpec) : outcome unit :=
  let n := nodes s in
  let e := elements s in
  oseq (ASSERT (n_num_blocks n =? zlen (n_blocks n)) "Inconsistent entity blocks in nodes.")
  (oseq (ASSERT (e_num_blocks e =? zlen (e_blocks e)) "Inconsistent entity blocks in elements.")
  (oseq (ASSERT (n_min n <=? n_max n) "Min node tag > max node tag.")
  (oseq (ASSERT (e_min e <=? e_max e) "Min element tag > max element tag.")
  (oseq (ofor (fun i => obind (at_ (n_blocks n) i) (validate_node_block n))
           (iota (n_num_blocks n)))
  (ofor (fun i => obind (at_ (e_blocks e) i) (validate_element_block n e))
     (iota (e_num_blocks e))))))).
