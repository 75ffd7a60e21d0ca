(** * SpecPanic: when a call that changes something panics *)
From Verif Require Export SpecParse SpecTree SpecAccess SpecData.

(** The handles given to a call. *)
Definition handles (o : op) : list id :=
  match o with
  | OCreateDocument _ _ (Some t) _ => [t]
  | OCreateDocument _ _ None _ | OCreateDocumentType _ _ _ | OReadXml _ | ODrop _ => []
  | OCreateElement d _ | OCreateElementNs d _ _ | OCreateAttribute d _ | OCreateAttributeWith d _ _ | OCreateAttributeNs d _ _
  | OCreateText d _ | OCreateCData d _ | OCreateComment d _ | OCreatePI d _ _ | OCreateFragment d | OCreateEntityReference d _
  | OCreateNotation d _ _ _ | OCreateEntity d _ _ _ | OCreateInternalEntity d _ _ | OSetXmlDecl d _ => [d]
  | OInsertBefore p c (Some r) => [p; c; r]
  | OInsertBefore p c None | OAppendChild p c | ORemoveChild p c => [p; c]
  | OReplaceChild p n o => [p; n; o]
  | OClone _ i | ONormalize i | OSetNodeValue i _ | OUnsetNodeValue i | OAppendData i _ | OInsertData i _ _ | ODeleteData i _ _
  | OReplaceData i _ _ _ | OSplit i _ | OAttrSetValue i _ | OAttrUnsetValue i => [i]
  | OSetAttribute e _ _ | OSetAttributeNs e _ _ _ | ORemoveAttribute e _ | ORemoveAttributeNs e _ _ => [e]
  | OSetAttributeNode e a | ORemoveAttributeNode e a => [e; a]
  end.
Definition handles_live (h : heap) (o : op) : Prop := forall i, In i (handles o) -> alive h i = true.
(** Offsets and counts are machine words, and no string is as long as the address space. *)
Definition op_fits (h : heap) (o : op) : Prop :=
  match o with
  | OInsertData _ o _ => (o < usize_mod)%N
  | ODeleteData _ o k | OReplaceData _ o k _ => (o < usize_mod)%N /\ (k < usize_mod)%N
  | OSplit i o => (o < usize_mod)%N /\ forall d, data h i = Ok (Some d) -> fits d
  | _ => True
  end.

(** The document of [i] is gone. *)
Definition orphaned (h : heap) (i : id) : Prop := exists d, document_of h i = Some d /\ alive h d = false.
(** An insertion that passes the first checks and then meets a document that is gone, or tries to put a node under itself. *)
Inductive insert_faulty (h : heap) (p c : id) (r : option id) : Prop :=
| if_gone : permitted h p c -> ~ second_element h p c -> (forall x, r = Some x -> child h p x) ->
    orphaned h p \/ orphaned h c -> insert_faulty h p c r
| if_self : permitted h p c -> (forall x, r = Some x -> child h p x) -> p = c ->
    (forall q, parent_node h c = Ok (Some q) -> child h q c) -> insert_faulty h p c r.
(** An edit of the bytes from [o] to [o + k]. *)
Definition edit_faulty (E : env) (h : heap) (i : id) (o k : N) : Prop :=
  (usize_mod <= o + k)%N /\ ((exists v, holds h i v /\ (o < blen v)%N) \/ holds_none h i /\ e_checked E = true)
  \/ (o + k < usize_mod)%N /\ exists v, holds h i v /\ (o < blen v)%N /\ (~ boundary v o \/ (o + k < blen v)%N /\ ~ boundary v (o + k)).
Inductive split_faulty (h : heap) (i : id) (o : N) : Prop :=
| sf_inside v : holds h i v -> (o < blen v)%N -> ~ boundary v o -> split_faulty h i o
| sf_gone t len p : node_type_of h i = Ok t -> t <> NComment -> length_ h i = Ok len -> (forall v, holds h i v -> (o < blen v)%N \/ (len <= o)%N) ->
    parent_node h i = Ok (Some p) -> orphaned h i -> split_faulty h i o.
(** A name that makes an attribute of [e] a namespace declaration or an id. *)
Definition special_name (h : heap) (e : id) (k : Name) : Prop :=
  nm_ns k = Some xmlns_uri /\ (nm_prefix k = None /\ nm_local k = lit "xmlns" \/ nm_prefix k = Some (lit "xmlns"))
  \/ exists d, owner_link h e = Some d /\ counts_as_id h d k.
Definition bad_value (E : env) (v : str) : Prop := exists a b, v = a ++ b /\ bad_ref E b.

Inductive call_faulty (E : env) (h : heap) : op -> Prop :=
| cf_document u q t o : wide_fault q -> call_faulty E h (OCreateDocument u (Some q) t o)
| cf_doctype q p s : wide_fault q -> call_faulty E h (OCreateDocumentType q p s)
| cf_element d n : wide_fault n -> call_faulty E h (OCreateElement d n)
| cf_element_ns d u n : wide_fault n -> call_faulty E h (OCreateElementNs d u n)
| cf_attribute d n : wide_fault n -> call_faulty E h (OCreateAttribute d n)
| cf_attribute_with d n v : wide_fault n -> call_faulty E h (OCreateAttributeWith d n v)
| cf_attribute_ns d u n : wide_fault n -> call_faulty E h (OCreateAttributeNs d u n)
| cf_pi d t s : wide_fault t -> call_faulty E h (OCreatePI d t s)
| cf_reference d n : wide_fault n -> call_faulty E h (OCreateEntityReference d n)
| cf_notation d n p s : wide_fault n -> call_faulty E h (OCreateNotation d n p s)
| cf_entity d n p s : wide_fault n -> call_faulty E h (OCreateEntity d n p s)
| cf_internal d n v : wide_fault n -> call_faulty E h (OCreateInternalEntity d n v)
| cf_insert p c r : insert_faulty h p c r -> call_faulty E h (OInsertBefore p c r)
| cf_append p c : insert_faulty h p c None -> call_faulty E h (OAppendChild p c)
| cf_replace p c o h1 r : permitted h p c -> remove_child p o h = (h1, Ok o) -> next_sibling h o = Ok r ->
    insert_faulty h1 p c r -> call_faulty E h (OReplaceChild p c o)
| cf_insert_data i o s : s <> [] -> edit_faulty E h i o 0 -> call_faulty E h (OInsertData i o s)
| cf_delete_data i o k : cut_fault E h i o k -> call_faulty E h (ODeleteData i o k)
| cf_replace_data i o k s : edit_faulty E h i o k -> call_faulty E h (OReplaceData i o k s)
| cf_split i o : split_faulty h i o -> call_faulty E h (OSplit i o)
| cf_set_value a v : orphaned h a -> call_faulty E h (OAttrSetValue a v)
| cf_set_name e n v : wide_fault n -> call_faulty E h (OSetAttribute e n v)
| cf_set_gone e n v k : name_from_str n = Ok k -> orphaned h e -> call_faulty E h (OSetAttribute e n v)
| cf_set_bad e n v k : name_from_str n = Ok k -> special_name h e k -> bad_value E v -> call_faulty E h (OSetAttribute e n v)
| cf_set_ns_name e u n v : wide_fault n -> call_faulty E h (OSetAttributeNs e u n v)
| cf_set_ns_gone e u n v k : name_new_ns u n = Ok k -> orphaned h e -> call_faulty E h (OSetAttributeNs e u n v)
| cf_set_ns_bad e u n v k : name_new_ns u n = Ok k -> special_name h e k -> bad_value E v -> call_faulty E h (OSetAttributeNs e u n v)
| cf_set_node_gone e a : node_type_of h a = Ok NAttribute -> orphaned h e \/ orphaned h a -> call_faulty E h (OSetAttributeNode e a)
| cf_set_node_bad e a k : node_type_of h a = Ok NAttribute -> owner_link h a = owner_link h e -> node_name h a = Ok k -> special_name h e k ->
    child_nodes h a = Ok [] \/ unreadable E h a -> call_faulty E h (OSetAttributeNode e a)
| cf_remove e n : wide_fault n -> call_faulty E h (ORemoveAttribute e n)
| cf_remove_ns e u n : wide_fault n -> call_faulty E h (ORemoveAttributeNs e u n)
| cf_remove_node e : call_faulty E h (ORemoveAttributeNode e e).

(** ** Reading a document *)
Definition no_name (s : str) : Prop := forall k, name_from_str s <> Ok k.
Definition quote_mark (c : N) : Prop := c = 34%N \/ c = 39%N.
(** [x] is [v], with or without quotes around it. *)
Definition unquoted (x v : str) : Prop := x = v /\ (forall q t, x = q :: t -> ~ quote_mark q) \/ exists q, quote_mark q /\ x = q :: v ++ [q].
Inductive bad_attr (E : env) : pattr -> Prop :=
| ba_malformed : bad_attr E PAttrMalformed
| ba_name n v : wide_fault n -> bad_attr E (PAttr n v)
| ba_id v : bad_value E v -> bad_attr E (PAttr (lit "xml:id") v).
Inductive bad_event (E : env) : event -> Prop :=
| be_no_version e s : bad_event E (EDecl None e s)
| be_quote q e s : quote_mark q -> bad_event E (EDecl (Some [q]) e s)
| be_version x v e s : unquoted x v -> v <> lit "1.0" -> v <> lit "1.1" -> bad_event E (EDecl (Some x) e s)
| be_no_encoding v s : bad_event E (EDecl v (Some None) s)
| be_encoding v x s : ~ encoding_name x -> bad_event E (EDecl v (Some (Some x)) s)
| be_no_standalone v e : bad_event E (EDecl v e (Some None))
| be_start n l : no_name n -> bad_event E (EStart (Some n) l)
| be_start_attr n l a : In a l -> bad_attr E a -> bad_event E (EStart n l)
| be_empty n l : no_name n -> bad_event E (EEmpty (Some n) l)
| be_empty_attr n l a : In a l -> bad_attr E a -> bad_event E (EEmpty n l)
| be_pi s t d : pi_text s t d -> xml_target t \/ no_name t -> bad_event E (EPI (Some s)).
