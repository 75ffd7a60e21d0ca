(** * SpecNorm: what normalizing a list of children should give *)
From Verif Require Export SpecTree.

(** The text of a Text node; nothing for any other node. *)
Definition text_of (h : heap) (c : id) : option str :=
  match h_nodes h !! c with
  | Some n => if bool_decide (n_type n = NText) then Some (default [] (n_value n)) else None
  | None => None
  end.
(** The children read from left to right: the characters of the Text nodes, one after the other, between
    the other nodes. *)
Definition reading (h : heap) (l : list id) : list (N + id) :=
  flat_map (fun c => match text_of h c with Some v => map inl v | None => [inr c] end) l.
(** No empty Text, and no two adjacent ones. *)
Definition tidy (h : heap) (l : list id) : Prop :=
  (forall c, In c l -> text_of h c <> Some []) /\
  forall x a b y, l = x ++ a :: b :: y -> text_of h a = None \/ text_of h b = None.
(** Nodes that agree except for the value and the parent link. *)
Definition same_but_value_parent (n n' : node) : Prop :=
  n_type n' = n_type n /\ n_name n' = n_name n /\ n_children n' = n_children n /\ n_owner n' = n_owner n /\ n_ext n' = n_ext n.
(** What may differ: the child list of [p], the value and parent link of the Text nodes in [s]; nothing else. *)
Definition changed_at (p : id) (s : list id) (i : id) (n n' : node) : Prop :=
  (i = p -> same_but_children n n') /\
  (i <> p -> In i s -> n_type n = NText -> same_but_value_parent n n') /\
  (i <> p -> ~ (In i s /\ n_type n = NText) -> n' = n).
Definition only_texts_changed (h h' : heap) (p : id) (s : list id) : Prop :=
  h_next h' = h_next h /\
  (forall i, h_nodes h !! i = None -> h_nodes h' !! i = None) /\
  forall i n, h_nodes h !! i = Some n -> exists n', h_nodes h' !! i = Some n' /\ changed_at p s i n n'.
