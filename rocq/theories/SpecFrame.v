(** * SpecFrame: which parts of which nodes a call may change *)
From Verif Require Export History.

(** The parts of a node that can change; type, name and owner document never do. *)
Inductive part := PValue | PParent | PChildren | PMaps.
Definition part_same (n n' : node) (f : part) : Prop :=
  match f with
  | PValue => n_value n' = n_value n
  | PParent => n_parent n' = n_parent n
  | PChildren => n_children n' = n_children n
  | PMaps => n_ext n' = n_ext n
  end.
Definition has_parent (h : heap) (c p : id) : Prop := exists n, h_nodes h !! c = Some n /\ n_parent n = Some p.
Definition has_owner (h : heap) (c d : id) : Prop := exists n, h_nodes h !! c = Some n /\ n_owner n = Some d.
Definition has_child (h : heap) (p c : id) : Prop := exists n, h_nodes h !! p = Some n /\ In c (n_children n).
Definition is_text (h : heap) (i : id) : Prop := exists n, h_nodes h !! i = Some n /\ n_type n = NText.
Definition has_attr (h : heap) (e a : id) : Prop :=
  exists n attrs ns k, h_nodes h !! e = Some n /\ n_ext n = XElement attrs ns /\ In (k, a) attrs.

(** [writes h o j f]: in state [h], the call [o] may change part [f] of the existing node [j]. *)
Definition writes (h : heap) (o : op) (j : id) (f : part) : Prop :=
  match o with
  | OInsertBefore p c _ | OAppendChild p c =>
      f = PChildren /\ (j = p \/ has_parent h c j) \/ f = PParent /\ j = c
  | OReplaceChild p c old =>
      f = PChildren /\ (j = p \/ has_parent h c j) \/ f = PParent /\ (j = c \/ j = old)
  | ORemoveChild p c => f = PChildren /\ j = p \/ f = PParent /\ j = c
  | ONormalize i =>
      f = PChildren /\ j = i \/ f = PParent /\ has_child h i j /\ is_text h j
      \/ f = PValue /\ is_text h j /\ exists c q, has_child h i c /\ is_text h c /\ has_parent h c q /\ has_child h q j
  | OSetNodeValue i _ | OUnsetNodeValue i | OAppendData i _ | OInsertData i _ _ | ODeleteData i _ _
  | OReplaceData i _ _ _ => f = PValue /\ j = i
  | OSplit i _ => f = PValue /\ j = i \/ f = PChildren /\ has_parent h i j
  | OAttrSetValue i _ | OAttrUnsetValue i => f = PChildren /\ j = i
  | OSetAttribute e _ _ | OSetAttributeNs e _ _ _ => f = PMaps /\ (j = e \/ has_owner h e j)
  | OSetAttributeNode e a => f = PMaps /\ (j = e \/ j = a \/ has_owner h a j)
  | ORemoveAttribute e _ | ORemoveAttributeNs e _ _ => f = PMaps /\ j = e \/ f = PParent /\ has_attr h e j
  | ORemoveAttributeNode e a => f = PMaps /\ j = e \/ f = PParent /\ j = a
  | OSetXmlDecl d _ => f = PMaps /\ j = d
  | _ => False
  end.
Definition drops (o : op) (j : id) : Prop := match o with ODrop l => j ∈ l | _ => False end.

(** The nodes a call is given. *)
Definition op_nodes (o : op) : list id :=
  match o with
  | OInsertBefore p c _ | OAppendChild p c | ORemoveChild p c | OSetAttributeNode p c | ORemoveAttributeNode p c => [p; c]
  | OReplaceChild p c x => [p; c; x]
  | ONormalize i | OSetNodeValue i _ | OUnsetNodeValue i | OAppendData i _ | OInsertData i _ _ | ODeleteData i _ _
  | OReplaceData i _ _ _ | OSplit i _ | OAttrSetValue i _ | OAttrUnsetValue i | OSetAttribute i _ _ | OSetAttributeNs i _ _ _
  | ORemoveAttribute i _ | ORemoveAttributeNs i _ _ | OSetXmlDecl i _ => [i]
  | _ => []
  end.
