(** * SpecRc: how many references there are (C80) *)
From Verif Require Export SpecMem RcModel.

Definition ok_list {A} (r : res (list A)) : list A := match r with Ok l => l | _ => [] end.
(** The [Rc]s stored in a node: of its children, its attributes, its document type. *)
Definition stored (h : heap) (i : id) : list id :=
  ok_list (child_nodes h i) ++ map snd (ok_list (attributes h i)) ++ match doc_type h i with Ok (Some t) => [t] | _ => [] end.
Definition live (h : heap) : list id := map fst (map_to_list (h_nodes h)).
Definition all_stored (h : heap) : list id := concat (map (stored h) (live h)).
(** The counts are right, for a program that has the [Rc]s [H], with repetitions; and exactly the nodes with an [Rc] exist. *)
Definition accurate (H : list id) (s : rc) : Prop :=
  (forall i, rc_count s i = (count_occ Nat.eq_dec H i + count_occ Nat.eq_dec (all_stored (rc_heap s)) i)%nat) /\
  (forall i, alive (rc_heap s) i = true <-> (0 < rc_count s i)%nat).
