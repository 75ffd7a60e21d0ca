(** * SpecTree: what a document tree should look like, over the read calls of the API *)
From Verif Require Export SpecText SpecName History.

(** DOM Level 2 Core, section 1.1.1, without the cases this implementation never allows (a DocumentType
    under a Document, a DocumentFragment as an argument). *)
Definition permitted_children (t : node_type) : list node_type :=
  match t with
  | NDocument => [NElement; NProcessingInstruction; NComment]
  | NAttribute => [NText; NEntityReference]
  | NElement | NEntityReference | NEntity | NDocumentFragment =>
      [NElement; NText; NComment; NProcessingInstruction; NCData; NEntityReference]
  | _ => []
  end.

(** [h'] comes after [h] in some history. *)
Definition later : heap -> heap -> Prop := rtc (fun a b => exists o, step a o b).
(** Histories in which every call satisfies a guard. *)
Inductive guided (G : heap -> op -> Prop) : heap -> Prop :=
| guided_nil : guided G empty_heap
| guided_step h o h' : guided G h -> G h o -> step h o h' -> guided G h'.

(** The owner link of a node, alive or not. *)
Definition owner_link (h : heap) (i : id) : option id := match h_nodes h !! i with Some n => n_owner n | None => None end.

(** [c] is a child of [p]. *)
Definition child (h : heap) (p c : id) : Prop := exists l, child_nodes h p = Ok l /\ In c l.
Definition acyclic (h : heap) : Prop := forall x, ~ tc (child h) x x.
(** [x] is [c] or one of its descendants. *)
Definition at_or_below (h : heap) (c x : id) : Prop := rtc (child h) c x.

(** Parent and child links agree, and no child is listed twice (Attribute nodes aside: their text has
    no parent). *)
Definition two_way (h : heap) : Prop := forall p l t,
  child_nodes h p = Ok l -> node_type_of h p = Ok t -> t <> NAttribute ->
  List.NoDup l /\ forall c, In c l <-> parent_node h c = Ok (Some p).

(** The guards of C27 and C28. *)
Definition tame (h : heap) (o : op) : Prop :=
  match o with
  | OClone true _ => False
  | ORemoveChild p _ | OReplaceChild p _ _ | ONormalize p => node_type_of h p <> Ok NAttribute
  | ORemoveAttributeNode _ a => node_type_of h a = Ok NAttribute
  | _ => True
  end.
Definition no_ancestor_insert (h : heap) (o : op) : Prop :=
  match o with
  | OInsertBefore p c _ | OAppendChild p c | OReplaceChild p c _ => ~ at_or_below h c p
  | _ => True
  end.

(** The nodes are the same except for the child list, or the parent link. *)
Definition same_but_children (n n' : node) : Prop :=
  n_type n' = n_type n /\ n_name n' = n_name n /\ n_value n' = n_value n /\ n_parent n' = n_parent n /\
  n_owner n' = n_owner n /\ n_ext n' = n_ext n.
Definition same_but_parent (n n' : node) : Prop :=
  n_type n' = n_type n /\ n_name n' = n_name n /\ n_value n' = n_value n /\ n_children n' = n_children n /\
  n_owner n' = n_owner n /\ n_ext n' = n_ext n.

(** [l] without its first occurrence of [c]. *)
Inductive without_first (c : id) : list id -> list id -> Prop :=
| wf_intro a b : ~ In c a -> without_first c (a ++ c :: b) (a ++ b).

(** ** When an insertion is refused, in order of checking *)
Definition document_of (h : heap) (i : id) : option id :=
  match node_type_of h i with Ok NDocument => Some i | _ => owner_link h i end.
Definition permitted (h : heap) (p c : id) : Prop := exists tp tc,
  node_type_of h p = Ok tp /\ node_type_of h c = Ok tc /\ In tc (permitted_children tp).
Definition second_element (h : heap) (p c : id) : Prop :=
  node_type_of h p = Ok NDocument /\ node_type_of h c = Ok NElement /\ exists x, child h p x /\ node_type_of h x = Ok NElement.
Inductive refused (h : heap) (p c : id) (r : option id) : error -> Prop :=
| rf_type : ~ permitted h p c -> refused h p c r HierarchyRequest
| rf_second : permitted h p c -> second_element h p c -> refused h p c r HierarchyRequest
| rf_ref x : permitted h p c -> ~ second_element h p c -> r = Some x -> ~ child h p x -> refused h p c r NotFound
| rf_document : permitted h p c -> ~ second_element h p c -> (forall x, r = Some x -> child h p x) ->
    document_of h p <> document_of h c -> refused h p c r WrongDocument
| rf_stale q : permitted h p c -> ~ second_element h p c -> (forall x, r = Some x -> child h p x) ->
    document_of h p = document_of h c -> parent_node h c = Ok (Some q) -> ~ child h q c -> refused h p c r NotFound.

(** Following [next_sibling] from a node (or nothing) gives these nodes and ends. *)
Inductive enumerates (h : heap) : option id -> list id -> Prop :=
| en_nil : enumerates h None []
| en_cons c o l : next_sibling h c = Ok o -> enumerates h o l -> enumerates h (Some c) (c :: l).
(** [p] and its children agree. *)
Definition consistent_at (h : heap) (p : id) (l : list id) : Prop :=
  child_nodes h p = Ok l /\ List.NoDup l /\ forall c, In c l -> parent_node h c = Ok (Some p).
(** Nothing but the nodes satisfying [P] changed. *)
Definition only_changed (h h' : heap) (P : id -> Prop) : Prop :=
  h_next h' = h_next h /\ forall i, ~ P i -> h_nodes h' !! i = h_nodes h !! i.

(** An attribute name that makes an id in document [d]: xml:id, or any id if the document was created so. *)
Definition counts_as_id (h : heap) (d : id) (k : Name) : Prop := nm_local k = lit "id" /\
  (nm_ns k = Some xml_uri \/ nm_prefix k = Some (lit "xml") \/
   exists n decl dt m o, h_nodes h !! d = Some n /\ n_ext n = XDocument decl dt m o /\ has_assume_ids o = true).
