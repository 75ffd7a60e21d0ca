(** * SpecUndo: a state taken back *)
From Verif Require Export SpecTree SpecNorm.

(** [h'] is [h] again: the same nodes with the same content, except that a link of [c] to a parent that
    is gone may have been cleared, which no read can tell. *)
Definition restored (h h' : heap) (c : id) : Prop :=
  only_changed h h' (eq c) /\
  exists n n', h_nodes h !! c = Some n /\ h_nodes h' !! c = Some n' /\ same_but_parent n n' /\
    parent_node h' c = parent_node h c /\ (n_parent n = None -> h' = h).
(** The document a node belongs to is still there. *)
Definition has_document (h : heap) (i : id) : Prop := exists d, owner_document h i = Ok (Some d).
(** [c] is the document element of [p]. *)
Definition is_root (h : heap) (p c : id) : Prop := node_type_of h p = Ok NDocument /\ node_type_of h c = Ok NElement.
