(** * SpecBorrow: what it means for the borrow-checked functions to do the same *)
From Verif Require Export Borrow SpecWild SpecPanic.

(** The same heap and the same result; a panic may be for another reason (and what it leaves behind is of
    no concern: no call is made after it). *)
Definition agree {A} (a b : heap * res A) : Prop := a = b \/ (exists h p, a = (h, Panic p)) /\ exists h p, b = (h, Panic p).
(** The calls that read the value of an attribute while a document is mutably borrowed. *)
Definition sets_attribute (o : op) : bool :=
  match o with OSetAttribute _ _ _ | OSetAttributeNs _ _ _ _ | OSetAttributeNode _ _ | OReadXml _ => true | _ => false end.

(** The states a way [X] of making calls can lead to, each call being given live handles and returning. *)
Inductive states (X : env -> op -> heap -> heap * res (option id)) : heap -> Prop :=
| states_nil : states X empty_heap
| states_call h E o h' r : states X h -> wf_env E -> handles_live h o -> X E o h = (h', r) ->
    match r with Ok _ | Err _ => True | Panic _ | Diverge => False end -> states X h'.

(** The calls that can meet a node that is borrowed already: those that pass one node in two places, and
    those that set an attribute that counts as an id, or one owned by the very element it is set on. *)
Inductive conflict (h : heap) : op -> Prop :=
| cn_insert p r : permitted h p p -> conflict h (OInsertBefore p p r)
| cn_append p : permitted h p p -> conflict h (OAppendChild p p)
| cn_replace p o : permitted h p p -> conflict h (OReplaceChild p p o)
| cn_remove e : conflict h (ORemoveAttributeNode e e)
| cn_set e n v k d : name_from_str n = Ok k -> owner_link h e = Some d -> d = e \/ counts_as_id h d k -> conflict h (OSetAttribute e n v)
| cn_set_ns e u n v k d : name_new_ns u n = Ok k -> owner_link h e = Some d -> d = e \/ counts_as_id h d k -> conflict h (OSetAttributeNs e u n v)
| cn_set_node e a k d : node_name h a = Ok k -> owner_link h a = Some d -> d = e \/ counts_as_id h d k -> conflict h (OSetAttributeNode e a).
