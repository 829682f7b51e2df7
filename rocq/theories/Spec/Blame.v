(** What each check of validate_spec.cpp claims and what it says when the claim
    is false, in the order of the source. *)

From Verif Require Export Spec.Valid.

Definition claim : Type := Prop * string.

(** validate_spec.cpp:19-26 *)
Definition head_claims (s : MshSpec) : list claim :=
  [(n_num_blocks (nodes s) = zlen (n_blocks (nodes s)), "Inconsistent entity blocks in nodes.");
   (e_num_blocks (elements s) = zlen (e_blocks (elements s)), "Inconsistent entity blocks in elements.");
   (n_min (nodes s) <= n_max (nodes s), "Min node tag > max node tag.");
   (e_min (elements s) <= e_max (elements s), "Min element tag > max element tag.")]%string.

(** validate_spec.cpp:29-42; the two messages about the data differ in spelling. *)
Definition node_claims (s : MshSpec) (b : NodeBlock) : list claim :=
  [(nb_num b = zlen (nb_tags b), "Inconsist number of node tags."%string)] ++
  flat_map (fun t => [(n_min (nodes s) <= t, "Node tag < min node tag.");
                      (t <= n_max (nodes s), "Node tag > max node tag.")]%string) (nb_tags b) ++
  [if 0 <? nb_parametric b
   then (zlen (nb_data b) = (zlen (nb_tags b) * (3 + nb_dim b)) mod 2 ^ 64, "Invalide node data size."%string)
   else (zlen (nb_data b) = (zlen (nb_tags b) * 3) mod 2 ^ 64, "Invalid node data size."%string)].

(** validate_spec.cpp:46-57: rows of [w] numbers, the first of each an element
    tag.  [k]: the column. *)
Fixpoint row_claims (s : MshSpec) (w k : Z) (l : list Z) : list claim :=
  match l with
  | [] => []
  | x :: l =>
    (if k =? 0
     then [(e_min (elements s) <= x, "Element tag < min element tag.");
           (x <= e_max (elements s), "Element tag > max element tag.")]%string
     else [(n_min (nodes s) <= x, "Node tag in element < min node tag.");
           (x <= n_max (nodes s), "Node tag in element > max node tag.")]%string) ++
    row_claims s w (if k + 1 =? w then 0 else k + 1) l
  end.
Definition element_claims (s : MshSpec) (b : ElementBlock) : list claim :=
  let w := zlen (eb_data b) / eb_num b in
  (Z.divide w (zlen (eb_data b)), "Invalid element data size."%string) :: row_claims s w 0 (eb_data b).

Definition claims (s : MshSpec) : list claim :=
  head_claims s ++ flat_map (node_claims s) (n_blocks (nodes s)) ++ flat_map (element_claims s) (e_blocks (elements s)).

(** [m] belongs to the first claim that is false. *)
Definition first_false (l : list claim) (m : string) : Prop :=
  exists before P after, l = before ++ (P, m) :: after /\ Forall fst before /\ ~ P.
