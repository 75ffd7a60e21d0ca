(** * SpecWalk: the tree below a node *)
From Verif Require Export SpecTree.

(** Nothing at or below [i] is on a cycle of child links. *)
Definition no_cycle_below (h : heap) (i : id) : Prop := forall x, at_or_below h i x -> ~ tc (child h) x x.

(** The tree of node identities below a node (children in order). *)
Inductive tree := Tr (i : id) (ts : list tree).
Inductive tree_of (h : heap) : id -> tree -> Prop :=
| tree_intro i cs ts : child_nodes h i = Ok cs -> Forall2 (tree_of h) cs ts -> tree_of h i (Tr i ts).

(** Document order, not looking below nodes that fail [p]. *)
Fixpoint in_order (p : id -> bool) (t : tree) : list id :=
  match t with Tr i ts => if p i then i :: concat (map (in_order p) ts) else [] end.
Definition is_element (h : heap) (i : id) : bool :=
  match node_type_of h i with Ok NElement => true | _ => false end.

(** [l'] is [l] with exactly the members satisfying [P] kept. *)
Inductive keeps {A} (P : A -> Prop) : list A -> list A -> Prop :=
| keeps_nil : keeps P [] []
| keeps_yes x l l' : P x -> keeps P l l' -> keeps P (x :: l) (x :: l')
| keeps_no x l l' : ~ P x -> keeps P l l' -> keeps P (x :: l) l'.

(** What the two tag searches look for. *)
Definition star : str := [42%N].
Definition tag_is (h : heap) (tag : str) (i : id) : Prop :=
  tag = star \/ exists k, node_name h i = Ok k /\ name_to_string k = tag.
(** An element whose namespace is the string [*] is found whatever the namespace asked for. *)
Definition expanded_is (h : heap) (uri local : str) (i : id) : Prop := exists k, node_name h i = Ok k /\
  (uri = star \/ nm_ns k = Some uri \/ nm_ns k = Some star) /\ (local = star \/ nm_local k = local).

(** All nodes of a tree, in document order. *)
Definition nodes_of (t : tree) : list id := in_order (fun _ => true) t.
(** Nothing in [h] changed on the way to [h']; nodes may have been added. *)
Definition only_added (h h' : heap) : Prop :=
  (h_next h <= h_next h')%nat /\ (forall i n, h_nodes h !! i = Some n -> h_nodes h' !! i = Some n) /\
  forall i n, h_nodes h' !! i = Some n -> (i < h_next h)%nat -> h_nodes h !! i = Some n.
(** [n'] looks like [n]: all but links to parent and children; attributes (etc.) are the same nodes. *)
Definition looks_like (n n' : node) : Prop :=
  n_type n' = n_type n /\ n_name n' = n_name n /\ n_value n' = n_value n /\ n_owner n' = n_owner n /\ n_ext n' = n_ext n.
(** The tree [t'] in [h'] is a copy of [t] in [h], without parent links. *)
Inductive copied (h h' : heap) : tree -> tree -> Prop :=
| copied_intro i j ts ts' n n' : h_nodes h !! i = Some n -> h_nodes h' !! j = Some n' -> looks_like n n' -> n_parent n' = None ->
    Forall2 (copied h h') ts ts' -> copied h h' (Tr i ts) (Tr j ts').
