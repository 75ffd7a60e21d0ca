(** * SpecGetters: what a factory call's arguments say about the answers of the node's getters (C69) *)
From Verif Require Export Access SpecName SpecTree.

(** The node carries the qualified name [s] in the namespace [u]. *)
Definition carries_name (h : heap) (i : id) (u : option str) (s : str) : Prop :=
  namespace_uri h i = Ok u /\ tag_name h i = Ok s /\ pi_target h i = Ok s /\
  ((colon_free s /\ Access.prefix h i = Ok None /\ local_name h i = Ok s)
   \/ exists p l, two_parts s p l /\ Access.prefix h i = Ok (Some p) /\ local_name h i = Ok l).
(** The nodes whose name is fixed by the standard: no prefix, the whole of it local. *)
Definition carries_special (h : heap) (i : id) (s : str) : Prop :=
  carries_name h i None s /\ colon_free s.

Definition ids_of_doctype (h : heap) (i : id) (pub sys : option str) : Prop :=
  dt_public_id h i = Ok pub /\ dt_system_id h i = Ok sys /\ dt_internal_subset h i = Ok None /\ dt_entities h i = Ok [] /\ dt_notations h i = Ok [].
Definition ids_of_entity (h : heap) (i : id) (pub sys : option str) : Prop :=
  ent_public_id h i = Ok pub /\ ent_system_id h i = Ok sys /\ ent_notation_name h i = Ok None.

(** How a node made by the call [o] reads. *)
Definition reads_as_made (h : heap) (i : id) (o : op) : Prop :=
  match o with
  | OCreateDocument _ _ dt _ =>
      node_type_of h i = Ok NDocument /\ carries_special h i (lit "#document") /\ doc_type h i = Ok dt /\ implementation h i = Ok tt
  | OCreateDocumentType s pub sys => node_type_of h i = Ok NDocumentType /\ carries_name h i None s /\ ids_of_doctype h i pub sys
  | OCreateElement _ s => node_type_of h i = Ok NElement /\ carries_name h i None s
  | OCreateElementNs _ u s => node_type_of h i = Ok NElement /\ carries_name h i (Some u) s
  | OCreateAttribute _ s | OCreateAttributeWith _ s _ => node_type_of h i = Ok NAttribute /\ carries_name h i None s /\ specified h i = Ok true
  | OCreateAttributeNs _ u s => node_type_of h i = Ok NAttribute /\ carries_name h i (Some u) s /\ specified h i = Ok true
  | OCreateText _ _ => node_type_of h i = Ok NText /\ carries_special h i (lit "#text")
  | OCreateCData _ _ => node_type_of h i = Ok NCData /\ carries_special h i (lit "#cdata-section")
  | OCreateComment _ _ => node_type_of h i = Ok NComment /\ carries_special h i (lit "#comment")
  | OCreateFragment _ => node_type_of h i = Ok NDocumentFragment /\ carries_special h i (lit "#document-fragment")
  | OCreatePI _ s _ => node_type_of h i = Ok NProcessingInstruction /\ carries_name h i None s
  | OCreateEntityReference _ s => node_type_of h i = Ok NEntityReference /\ carries_name h i None s
  | OCreateNotation _ s pub sys =>
      node_type_of h i = Ok NNotation /\ carries_name h i None s /\ not_public_id h i = Ok pub /\ not_system_id h i = Ok sys
  | OCreateEntity _ s pub sys => node_type_of h i = Ok NEntity /\ carries_name h i None s /\ ids_of_entity h i pub sys
  | OCreateInternalEntity _ s _ => node_type_of h i = Ok NEntity /\ carries_name h i None s /\ ids_of_entity h i None None
  | _ => True
  end.

(** Two nodes answer every such question alike. *)
Definition same_made (h : heap) (i : id) (h' : heap) (j : id) : Prop :=
  node_type_of h' j = node_type_of h i /\ namespace_uri h' j = namespace_uri h i /\ tag_name h' j = tag_name h i /\
  pi_target h' j = pi_target h i /\ Access.prefix h' j = Access.prefix h i /\ local_name h' j = local_name h i /\
  doc_type h' j = doc_type h i /\ implementation h' j = implementation h i /\ specified h' j = specified h i /\
  dt_public_id h' j = dt_public_id h i /\ dt_system_id h' j = dt_system_id h i /\ dt_internal_subset h' j = dt_internal_subset h i /\
  dt_entities h' j = dt_entities h i /\ dt_notations h' j = dt_notations h i /\
  ent_public_id h' j = ent_public_id h i /\ ent_system_id h' j = ent_system_id h i /\ ent_notation_name h' j = ent_notation_name h i /\
  not_public_id h' j = not_public_id h i /\ not_system_id h' j = not_system_id h i.

(** The value a factory call gives its node. *)
Definition first_value (o : op) : option str :=
  match o with
  | OCreateText _ s | OCreateCData _ s | OCreateComment _ s | OCreateInternalEntity _ _ s => Some s
  | OCreatePI _ _ s => s
  | _ => None
  end.
