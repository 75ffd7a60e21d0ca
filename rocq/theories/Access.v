(** * Access: conversions and the remaining read accessors

    src/shared/convert.rs, src/level2/convert.rs, src/level2/ext/convert.rs, the trivial getters of
    src/level2/trait_impls.rs and the trait defaults of src/level2/traits.rs.  [query] lists every public
    call that only reads; [ask] answers one. *)
From Verif Require Export History.

(** ** Conversions *)

(** The traits a [RefNode] can be converted to. *)
Inductive trait :=
| TAttribute | TElement | TCharacterData | TText | TCDataSection | TEntityReference | TEntity
| TProcessingInstruction | TComment | TDocument | TDocumentType | TDocumentFragment | TNotation
| TDocumentDecl | TNamespaced.

(** shared/convert.rs 24-26, 46-48: the macro-generated [is_f], for the node type given to the macro. *)
Definition is_f (t : node_type) (h : heap) (i : id) : res bool :=
  let? n := get_node h i in Ok (type_eqb (n_type n) t).
(** shared/convert.rs 32-39, 54-61 and 67-74: [as_f] and [as_mut_f]; the converted reference is the node. *)
Definition as_f (t : node_type) (h : heap) (i : id) : res id :=
  let? n := get_node h i in
  if type_eqb (n_type n) t then Ok i else Err InvalidState.
(** level2/convert.rs 77-82 *)
Definition is_char_data (h : heap) (i : id) : res bool :=
  let? n := get_node h i in
  Ok match n_type n with NCData | NComment | NText => true | _ => false end.
(** level2/convert.rs 88-98 and 104-115 *)
Definition as_char_data (h : heap) (i : id) : res id :=
  let? n := get_node h i in
  match n_type n with NCData | NComment | NText => Ok i | _ => Err InvalidState end.

(** level2/convert.rs 57-72, 117-209 and level2/ext/convert.rs 27-56: the node type each instance of the macro is given. *)
Definition is_trait (T : trait) : heap -> id -> res bool :=
  match T with
  | TAttribute => is_f NAttribute
  | TElement => is_f NElement
  | TCharacterData => is_char_data
  | TText => is_f NText
  | TCDataSection => is_f NCData
  | TEntityReference => is_f NEntityReference
  | TEntity => is_f NEntity
  | TProcessingInstruction => is_f NProcessingInstruction
  | TComment => is_f NComment
  | TDocument => is_f NDocument
  | TDocumentType => is_f NDocumentType
  | TDocumentFragment => is_f NDocumentFragment
  | TNotation => is_f NNotation
  | TDocumentDecl => is_f NDocument
  | TNamespaced => is_f NElement
  end.
Definition as_trait (T : trait) : heap -> id -> res id :=
  match T with
  | TAttribute => as_f NAttribute
  | TElement => as_f NElement
  | TCharacterData => as_char_data
  | TText => as_f NText
  | TCDataSection => as_f NCData
  | TEntityReference => as_f NEntityReference
  | TEntity => as_f NEntity
  | TProcessingInstruction => as_f NProcessingInstruction
  | TComment => as_f NComment
  | TDocument => as_f NDocument
  | TDocumentType => as_f NDocumentType
  | TDocumentFragment => as_f NDocumentFragment
  | TNotation => as_f NNotation
  | TDocumentDecl => as_f NDocument
  | TNamespaced => as_f NElement
  end.

(** ** Trait defaults of Node, Element, Attribute and ProcessingInstruction *)
Definition namespace_uri (h : heap) (i : id) : res (option str) := (* traits.rs 1652-1654 *)
  let? n := node_name h i in Ok (nm_ns n).
Definition local_name (h : heap) (i : id) : res str := (* traits.rs 1664-1666 *)
  let? n := node_name h i in Ok (nm_local n).
Definition prefix (h : heap) (i : id) : res (option str) := (* traits.rs 1695-1697 *)
  let? n := node_name h i in Ok (nm_prefix n).
Definition tag_name (h : heap) (i : id) : res str := (* traits.rs 898-900 *)
  let? n := node_name h i in Ok (name_to_string n).
Definition pi_target (h : heap) (i : id) : res str := (* traits.rs 1791-1793 *)
  let? n := node_name h i in Ok (name_to_string n).
Definition pi_data (h : heap) (i : id) : res (option str) := node_value h i. (* traits.rs 1768-1770 *)
Definition pi_length (h : heap) (i : id) : res N := (* traits.rs 1750-1755 *)
  let? d := pi_data h i in Ok match d with None => 0%N | Some s => blen s end.
Definition specified (h : heap) (i : id) : res bool := (* traits.rs 64-66 *)
  let? _ := get_node h i in Ok true.
Definition is_supported (h : heap) (i : id) (feature version : str) : res bool := (* trait_impls.rs 1097-1099 *)
  let? _ := get_node h i in Ok (has_feature feature version).

(** ** DocumentType, Entity, Notation (trait_impls.rs 372-390, 763-773, 1109-1115)

    On a node of another type the macro [unwrap_extension_field] (20-28) answers the default value. *)
Definition dt_entities (h : heap) (i : id) : res (list (Name * id)) := (* 372-374 *)
  let? n := get_node h i in Ok match n_ext n with XDocumentType e _ _ _ _ => e | _ => [] end.
Definition dt_notations (h : heap) (i : id) : res (list (Name * id)) := (* 376-378 *)
  let? n := get_node h i in Ok match n_ext n with XDocumentType _ t _ _ _ => t | _ => [] end.
Definition dt_public_id (h : heap) (i : id) : res (option str) := (* 380-382 *)
  let? n := get_node h i in Ok match n_ext n with XDocumentType _ _ p _ _ => p | _ => None end.
Definition dt_system_id (h : heap) (i : id) : res (option str) := (* 384-386 *)
  let? n := get_node h i in Ok match n_ext n with XDocumentType _ _ _ s _ => s | _ => None end.
Definition dt_internal_subset (h : heap) (i : id) : res (option str) := (* 388-390 *)
  let? n := get_node h i in Ok match n_ext n with XDocumentType _ _ _ _ x => x | _ => None end.
Definition ent_public_id (h : heap) (i : id) : res (option str) := (* 763-765 *)
  let? n := get_node h i in Ok match n_ext n with XEntity p _ _ => p | _ => None end.
Definition ent_system_id (h : heap) (i : id) : res (option str) := (* 767-769 *)
  let? n := get_node h i in Ok match n_ext n with XEntity _ s _ => s | _ => None end.
Definition ent_notation_name (h : heap) (i : id) : res (option str) := (* 771-773 *)
  let? n := get_node h i in Ok match n_ext n with XEntity _ _ x => x | _ => None end.
Definition not_public_id (h : heap) (i : id) : res (option str) := (* 1109-1111 *)
  let? n := get_node h i in Ok match n_ext n with XNotation p _ => p | _ => None end.
Definition not_system_id (h : heap) (i : id) : res (option str) := (* 1113-1115 *)
  let? n := get_node h i in Ok match n_ext n with XNotation _ s => s | _ => None end.
(** [Document::implementation], trait_impls.rs 240-250: the only getter that panics on a node of another type.
    There is one implementation object. *)
Definition implementation (h : heap) (i : id) : res unit :=
  let? n := get_node h i in match n_ext n with XDocument _ _ _ _ => Ok tt | _ => Panic PExplicit end.

(** ** Queries *)
Inductive query :=
(* conversions *)
| QIs (T : trait) (i : id) | QAs (T : trait) (i : id)
(* Node *)
| QNodeName (i : id) | QNodeValue (i : id) | QNodeType (i : id) | QParent (i : id) | QChildren (i : id)
| QFirstChild (i : id) | QLastChild (i : id) | QPrevious (i : id) | QNext (i : id) | QAttributes (i : id)
| QOwnerDocument (i : id) | QHasChildren (i : id) | QIsSupported (i : id) (f v : str) | QHasAttributes (i : id)
| QNamespaceUri (i : id) | QLocalName (i : id) | QPrefix (i : id) | QToString (i : id)
(* Attribute *)
| QSpecified (i : id) | QOwnerElement (i : id) | QValue (i : id)
(* CharacterData *)
| QLength (i : id) | QData (i : id) | QSubstring (i : id) (off cnt : N)
(* Document, DocumentDecl *)
| QDocType (i : id) | QDocumentElement (i : id) | QImplementation (i : id) | QById (i : id) (k : str)
| QDocByTag (i : id) (tag : str) | QDocByTagNs (i : id) (uri local : str) | QXmlDecl (i : id)
(* DocumentType, Entity, Notation *)
| QEntities (i : id) | QNotations (i : id) | QDtPublic (i : id) | QDtSystem (i : id) | QSubset (i : id)
| QEntPublic (i : id) | QEntSystem (i : id) | QEntNotation (i : id) | QNotPublic (i : id) | QNotSystem (i : id)
(* Element *)
| QTagName (i : id) | QGetAttribute (i : id) (name : str) | QGetAttributeNode (i : id) (name : str)
| QHasAttribute (i : id) (name : str) | QGetAttributeNs (i : id) (uri local : str)
| QGetAttributeNodeNs (i : id) (uri local : str) | QHasAttributeNs (i : id) (uri local : str)
| QByTag (i : id) (tag : str) | QByTagNs (i : id) (uri local : str)
(* ProcessingInstruction *)
| QTarget (i : id) | QPiData (i : id) | QPiLength (i : id)
(* Namespaced *)
| QContainsMapping (i : id) (p : option str) | QGetNamespace (i : id) (p : option str)
| QResolveNamespace (i : id) (p : option str) | QContainsMapped (i : id) (uri : str)
| QGetPrefix (i : id) (uri : str) | QResolvePrefix (i : id) (uri : str).

Inductive answer :=
| ABool (b : bool) | ANum (n : N) | AStr (s : str) | AOptStr (s : option str) | ANode (i : id) | AOptNode (i : option id)
| ANodes (l : list id) | AName (n : Name) | AType (t : node_type) | AMap (m : list (Name * id))
| ADecl (d : option xml_decl) | APrefix (p : ns_prefix) | AUnit.

Definition ans {A} (f : A -> answer) (r : res A) : res answer := let? a := r in Ok (f a).

Definition ask (E : env) (h : heap) (q : query) : res answer :=
  match q with
  | QIs T i => ans ABool (is_trait T h i)
  | QAs T i => ans ANode (as_trait T h i)
  | QNodeName i => ans AName (node_name h i)
  | QNodeValue i => ans AOptStr (node_value h i)
  | QNodeType i => ans AType (node_type_of h i)
  | QParent i => ans AOptNode (parent_node h i)
  | QChildren i => ans ANodes (child_nodes h i)
  | QFirstChild i => ans AOptNode (first_child h i)
  | QLastChild i => ans AOptNode (last_child h i)
  | QPrevious i => ans AOptNode (previous_sibling h i)
  | QNext i => ans AOptNode (next_sibling h i)
  | QAttributes i => ans AMap (attributes h i)
  | QOwnerDocument i => ans AOptNode (owner_document h i)
  | QHasChildren i => ans ABool (has_child_nodes h i)
  | QIsSupported i f v => ans ABool (is_supported h i f v)
  | QHasAttributes i => ans ABool (has_attributes h i)
  | QNamespaceUri i => ans AOptStr (namespace_uri h i)
  | QLocalName i => ans AStr (local_name h i)
  | QPrefix i => ans AOptStr (prefix h i)
  | QToString i => ans AStr (to_string E h i)
  | QSpecified i => ans ABool (specified h i)
  | QOwnerElement i => ans AOptNode (owner_element h i)
  | QValue i => ans AOptStr (attr_value E h i)
  | QLength i => ans ANum (length_ h i)
  | QData i => ans AOptStr (data h i)
  | QSubstring i o c => ans AStr (substring_data E h i o c)
  | QDocType i => ans AOptNode (doc_type h i)
  | QDocumentElement i => ans AOptNode (document_element h i)
  | QImplementation i => ans (fun _ => AUnit) (implementation h i)
  | QById i k => ans AOptNode (get_element_by_id h i k)
  | QDocByTag i t => ans ANodes (document_get_elements_by_tag_name h i t)
  | QDocByTagNs i u l => ans ANodes (document_get_elements_by_tag_name_ns h i u l)
  | QXmlDecl i => ans ADecl (xml_declaration h i)
  | QEntities i => ans AMap (dt_entities h i)
  | QNotations i => ans AMap (dt_notations h i)
  | QDtPublic i => ans AOptStr (dt_public_id h i)
  | QDtSystem i => ans AOptStr (dt_system_id h i)
  | QSubset i => ans AOptStr (dt_internal_subset h i)
  | QEntPublic i => ans AOptStr (ent_public_id h i)
  | QEntSystem i => ans AOptStr (ent_system_id h i)
  | QEntNotation i => ans AOptStr (ent_notation_name h i)
  | QNotPublic i => ans AOptStr (not_public_id h i)
  | QNotSystem i => ans AOptStr (not_system_id h i)
  | QTagName i => ans AStr (tag_name h i)
  | QGetAttribute i n => ans AOptStr (get_attribute E h i n)
  | QGetAttributeNode i n => ans AOptNode (get_attribute_node E h i n)
  | QHasAttribute i n => ans ABool (has_attribute h i n)
  | QGetAttributeNs i u l => ans AOptStr (get_attribute_ns E h i u l)
  | QGetAttributeNodeNs i u l => ans AOptNode (get_attribute_node_ns E h i u l)
  | QHasAttributeNs i u l => ans ABool (has_attribute_ns h i u l)
  | QByTag i t => ans ANodes (get_elements_by_tag_name h i t)
  | QByTagNs i u l => ans ANodes (get_elements_by_tag_name_ns h i u l)
  | QTarget i => ans AStr (pi_target h i)
  | QPiData i => ans AOptStr (pi_data h i)
  | QPiLength i => ans ANum (pi_length h i)
  | QContainsMapping i p => ans ABool (contains_mapping h i p)
  | QGetNamespace i p => ans AOptStr (get_namespace h i p)
  | QResolveNamespace i p => ans AOptStr (resolve_namespace h i p)
  | QContainsMapped i u => ans ABool (contains_mapped_namespace E h i u)
  | QGetPrefix i u => ans APrefix (get_prefix E h i u)
  | QResolvePrefix i u => ans APrefix (resolve_prefix E h i u)
  end.
