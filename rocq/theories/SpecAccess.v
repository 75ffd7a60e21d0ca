(** * SpecAccess: which conversions and reads succeed *)
From Verif Require Export SpecData SpecName SpecNs SpecShow Access.

(** The DOM interface a node type has, besides [Node] (DOM Level 2 Core, 1.1.1), and the two extensions of this crate. *)
Inductive has_interface : node_type -> trait -> Prop :=
| if_attr : has_interface NAttribute TAttribute
| if_elem : has_interface NElement TElement
| if_ns : has_interface NElement TNamespaced
| if_text : has_interface NText TText
| if_text_cd : has_interface NText TCharacterData
| if_comment : has_interface NComment TComment
| if_comment_cd : has_interface NComment TCharacterData
| if_cdata : has_interface NCData TCDataSection
| if_cdata_cd : has_interface NCData TCharacterData
| if_eref : has_interface NEntityReference TEntityReference
| if_ent : has_interface NEntity TEntity
| if_pi : has_interface NProcessingInstruction TProcessingInstruction
| if_doc : has_interface NDocument TDocument
| if_decl : has_interface NDocument TDocumentDecl
| if_dt : has_interface NDocumentType TDocumentType
| if_frag : has_interface NDocumentFragment TDocumentFragment
| if_not : has_interface NNotation TNotation.

(** The node and trait a call goes through; [None] for a function of the implementation or a method of [Node]. *)
Definition called_on (o : op) : option (id * trait) :=
  match o with
  | OCreateElement d _ | OCreateElementNs d _ _ | OCreateAttribute d _ | OCreateAttributeWith d _ _
  | OCreateAttributeNs d _ _ | OCreateText d _ | OCreateCData d _ | OCreateComment d _
  | OCreatePI d _ _ | OCreateFragment d | OCreateEntityReference d _ | OCreateNotation d _ _ _
  | OCreateEntity d _ _ _ | OCreateInternalEntity d _ _ => Some (d, TDocument)
  | OSetXmlDecl d _ => Some (d, TDocumentDecl)
  | OCreateDocument _ _ (Some t) _ => Some (t, TDocumentType)
  | OAppendData i _ | OInsertData i _ _ | ODeleteData i _ _ | OReplaceData i _ _ _ | OSplit i _ => Some (i, TCharacterData)
  | OAttrSetValue i _ | OAttrUnsetValue i => Some (i, TAttribute)
  | OSetAttribute e _ _ | OSetAttributeNs e _ _ _ | OSetAttributeNode e _ | ORemoveAttribute e _
  | ORemoveAttributeNs e _ _ | ORemoveAttributeNode e _ => Some (e, TElement)
  | _ => None
  end.

(** ** Reads *)
Definition about (q : query) : id :=
  match q with
  | QIs _ i | QAs _ i | QNodeName i | QNodeValue i | QNodeType i | QParent i | QChildren i | QFirstChild i | QLastChild i
  | QPrevious i | QNext i | QAttributes i | QOwnerDocument i | QHasChildren i | QIsSupported i _ _ | QHasAttributes i
  | QNamespaceUri i | QLocalName i | QPrefix i | QToString i | QSpecified i | QOwnerElement i | QValue i | QLength i | QData i
  | QSubstring i _ _ | QDocType i | QDocumentElement i | QImplementation i | QById i _ | QDocByTag i _ | QDocByTagNs i _ _
  | QXmlDecl i | QEntities i | QNotations i | QDtPublic i | QDtSystem i | QSubset i | QEntPublic i | QEntSystem i
  | QEntNotation i | QNotPublic i | QNotSystem i | QTagName i | QGetAttribute i _ | QGetAttributeNode i _
  | QHasAttribute i _ | QGetAttributeNs i _ _ | QGetAttributeNodeNs i _ _ | QHasAttributeNs i _ _ | QByTag i _
  | QByTagNs i _ _ | QTarget i | QPiData i | QPiLength i | QContainsMapping i _ | QGetNamespace i _
  | QResolveNamespace i _ | QContainsMapped i _ | QGetPrefix i _ | QResolvePrefix i _ => i
  end.
(** The reads that go through the tree. *)
Definition walk (q : query) : bool :=
  match q with
  | QToString _ | QDocByTag _ _ | QDocByTagNs _ _ _ | QByTag _ _ | QByTagNs _ _ _ | QResolveNamespace _ _ | QResolvePrefix _ _ => true
  | _ => false
  end.
(** Offsets and counts are machine words. *)
Definition words_fit (q : query) : Prop :=
  match q with QSubstring _ o k => (o < usize_mod)%N /\ (k < usize_mod)%N | _ => True end.

(** The stored text of attribute [a] contains a reference that cannot be replaced (C05, C06). *)
Definition unreadable (E : env) (h : heap) (a : id) : Prop :=
  exists raw p r, stored_text h a raw /\ raw = p ++ r /\ bad_ref E r.
Definition cut_fault (E : env) (h : heap) (i : id) (o k : N) : Prop :=
  (usize_mod <= o + k)%N /\ (e_checked E = true \/ exists v, holds h i v /\ (o < blen v)%N)
  \/ (o + k < usize_mod)%N /\ (0 < k)%N /\
     exists v, holds h i v /\ (o < blen v)%N /\ (~ boundary v o \/ (o + k < blen v)%N /\ ~ boundary v (o + k)).
(** When a read panics. *)
Inductive faulty (E : env) (h : heap) : query -> Prop :=
| fa_value i : unreadable E h i -> faulty E h (QValue i)
| fa_get i s : node_type_of h i = Ok NElement -> wide_fault s -> faulty E h (QGetAttribute i s)
| fa_get_value i s a : get_attribute_node E h i s = Ok (Some a) -> unreadable E h a -> faulty E h (QGetAttribute i s)
| fa_node i s : node_type_of h i = Ok NElement -> wide_fault s -> faulty E h (QGetAttributeNode i s)
| fa_has i s : node_type_of h i = Ok NElement -> wide_fault s -> faulty E h (QHasAttribute i s)
| fa_get_ns i u s : node_type_of h i = Ok NElement -> wide_fault s -> faulty E h (QGetAttributeNs i u s)
| fa_get_value_ns i u s a : get_attribute_node_ns E h i u s = Ok (Some a) -> unreadable E h a -> faulty E h (QGetAttributeNs i u s)
| fa_node_ns i u s : node_type_of h i = Ok NElement -> wide_fault s -> faulty E h (QGetAttributeNodeNs i u s)
| fa_has_ns i u s : node_type_of h i = Ok NElement -> wide_fault s -> faulty E h (QHasAttributeNs i u s)
| fa_cut i o k : cut_fault E h i o k -> faulty E h (QSubstring i o k)
| fa_impl i : node_type_of h i <> Ok NDocument -> faulty E h (QImplementation i).
(** When a read returns an error. *)
Inductive denied (E : env) (h : heap) : query -> error -> Prop :=
| de_as T i t : node_type_of h i = Ok t -> ~ has_interface t T -> denied E h (QAs T i) InvalidState
| de_cut i o k : ((o + k < usize_mod)%N \/ e_checked E = false) -> (0 < k)%N ->
    (holds_none h i \/ exists v, holds h i v /\ (blen v <= o)%N) -> denied E h (QSubstring i o k) IndexSize.

(** Printing [i] prints [j]. *)
Inductive shows (h : heap) : id -> id -> Prop :=
| sh_self i : shows h i i
| sh_child i t c j : node_type_of h i = Ok t -> In t [NElement; NDocument; NDocumentFragment] -> child h i c -> shows h c j -> shows h i j.
(** When a walk panics. *)
Inductive walk_faulty (E : env) (h : heap) : query -> Prop :=
| wf_show_attr i j : shows h i j -> node_type_of h j = Ok NAttribute -> unreadable E h j -> walk_faulty E h (QToString i)
| wf_show i j attrs k a : shows h i j -> attributes h j = Ok attrs -> In (k, a) attrs -> unreadable E h a -> walk_faulty E h (QToString i)
| wf_ns i p : aware h i -> climbs h (fun j => exists u, maps h j p u) i AtGone -> walk_faulty E h (QResolveNamespace i p)
| wf_prefix i u : aware h i -> climbs h (fun j => exists p, maps h j p u) i AtGone -> walk_faulty E h (QResolvePrefix i u).
