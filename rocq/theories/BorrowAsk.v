(** * BorrowAsk: the calls that only read, with the dynamic borrow checks of [RefCell]

    The counterpart of [Access.ask], as [Borrow] is of [History.exec]: every read is written out with the
    guards it takes and how long it holds them.  A function that reads several fields of one node under one
    guard reads them at once here; reading the same field of a node a second time with nothing in between is
    left out. *)
From Verif Require Export Borrow Access.

(** [let r = i.borrow(); f(&r)] *)
Definition b_get {A} (f : node -> A) (i : id) : B A := borrow i (fun n => b_ret (f n)).
(** A function that does not look at the node (traits.rs 64-66, trait_impls.rs 1097-1099); the handle must exist. *)
Definition b_handle (i : id) : B unit := b_free (with_handle i (ret tt)).

(** ** Conversions *)
Definition b_is_f (t : node_type) : id -> B bool := b_get (fun n => type_eqb (n_type n) t). (* shared/convert.rs 24-26 *)
Definition b_as_f (t : node_type) (i : id) : B id := (* shared/convert.rs 32-39: the guard ends with the condition *)
  dob? b := b_is_f t i in if b then b_ret i else b_fail InvalidState.
Definition b_is_char_data : id -> B bool := (* level2/convert.rs 77-82 *)
  b_get (fun n => match n_type n with NCData | NComment | NText => true | _ => false end).
Definition b_as_char_data (i : id) : B id := (* level2/convert.rs 88-98: the guard lasts to the end of the match *)
  borrow i (fun n => match n_type n with NCData | NComment | NText => b_ret i | _ => b_fail InvalidState end).
Definition b_is_trait (T : trait) : id -> B bool :=
  match T with
  | TAttribute => b_is_f NAttribute
  | TElement => b_is_f NElement
  | TCharacterData => b_is_char_data
  | TText => b_is_f NText
  | TCDataSection => b_is_f NCData
  | TEntityReference => b_is_f NEntityReference
  | TEntity => b_is_f NEntity
  | TProcessingInstruction => b_is_f NProcessingInstruction
  | TComment => b_is_f NComment
  | TDocument => b_is_f NDocument
  | TDocumentType => b_is_f NDocumentType
  | TDocumentFragment => b_is_f NDocumentFragment
  | TNotation => b_is_f NNotation
  | TDocumentDecl => b_is_f NDocument
  | TNamespaced => b_is_f NElement
  end.
Definition b_as_trait (T : trait) : id -> B id :=
  match T with
  | TAttribute => b_as_f NAttribute
  | TElement => b_as_f NElement
  | TCharacterData => b_as_char_data
  | TText => b_as_f NText
  | TCDataSection => b_as_f NCData
  | TEntityReference => b_as_f NEntityReference
  | TEntity => b_as_f NEntity
  | TProcessingInstruction => b_as_f NProcessingInstruction
  | TComment => b_as_f NComment
  | TDocument => b_as_f NDocument
  | TDocumentType => b_as_f NDocumentType
  | TDocumentFragment => b_as_f NDocumentFragment
  | TNotation => b_as_f NNotation
  | TDocumentDecl => b_as_f NDocument
  | TNamespaced => b_as_f NElement
  end.

(** ** Node *)
Definition b_attributes (i : id) : B (list (Name * id)) := (* trait_impls.rs 900-907 *)
  dob? e := b_is NElement i in
  if e then b_get (fun n => match n_ext n with XElement a _ => a | _ => [] end) i else b_ret [].
Definition b_has_attributes (i : id) : B bool := dob? a := b_attributes i in b_ret (negb (is_nil a)). (* 1101-1103 *)

(** ** Attribute, Document *)
Definition b_owner_element (i : id) : B (option id) := (* 116-134 *)
  borrow i (fun n => match n_ext n with XAttribute o => b_upgrade o | _ => b_ret None end).
Definition b_document_element (i : id) : B (option id) := dob? l := b_child_nodes i in b_ret (head l). (* 236-238 *)
Definition b_get_element_by_id (i : id) (k : str) : B (option id) := (* 323-340 *)
  borrow i (fun n => match n_ext n with XDocument _ _ m _ => b_upgrade (hm_get k m) | _ => b_ret None end).
Definition b_implementation (i : id) : B unit := (* 240-250 *)
  borrow i (fun n => match n_ext n with XDocument _ _ _ _ => b_ret tt | _ => b_panic PExplicit end).

(** ** Element *)
(** 588-606 and 678-706: the guard to the element is held while its children are searched. *)
Fixpoint b_search (fuel : nat) (p : Name -> bool) (i : id) : B (list id) :=
  match fuel with
  | O => fun _ h => (h, Diverge)
  | S k =>
      dob? e := b_is NElement i in
      if e then
        borrow i (fun n =>
          dob? below := b_map (fun c => dob? e := b_is NElement c in if e then b_search k p c else b_ret []) (n_children n) in
          b_ret ((if p (n_name n) then [i] else []) ++ concat below))
      else b_ret []
  end.
Definition b_by_tag (i : id) (tag : str) : B (list id) := fun g h => (* 588-606 *)
  b_search (walk_fuel h) (fun n => tag_name_match (name_to_string n) tag) i g h.
Definition b_by_tag_ns (i : id) (uri local : str) : B (list id) := fun g h => (* 678-706 *)
  b_search (walk_fuel h) (fun n => namespaced_name_match (nm_ns n) (nm_local n) uri local) i g h.
(** 342-351, 353-362 *)
Definition b_on_root (f : id -> B (list id)) (i : id) : B (list id) :=
  dob? r := b_document_element i in match r with Some e => f e | None => b_ret [] end.
(** 429-440, 608-619 after the lookup *)
Definition b_value_of (E : env) (o : option id) : B (option str) :=
  match o with
  | None => b_ret None
  | Some a => dob? t := b_is NAttribute a in if t then b_attr_value E a else b_ret None
  end.
Definition b_get_attribute (E : env) (i : id) (name : str) : B (option str) := (* 429-440 *)
  dob? a := b_get_attribute_node E i name in b_value_of E a.
Definition b_get_attribute_ns (E : env) (i : id) (uri local : str) : B (option str) := (* 608-619 *)
  dob? a := b_get_attribute_node_ns E i uri local in b_value_of E a.
Definition b_has_attribute_in (i : id) (r : res Name) (same : Name -> Name -> bool) : B bool :=
  dob? e := b_is NElement i in
  if e then
    match r with
    | Ok nm => b_get (fun n => match n_ext n with XElement attrs _ => existsb (fun p => same p.1 nm) attrs | _ => false end) i
    | Err _ => b_ret false
    | Panic p => b_panic p
    | Diverge => fun _ h => (h, Diverge)
    end
  else b_ret false.
Definition b_has_attribute (i : id) (name : str) : B bool := (* 708-731 *)
  b_has_attribute_in i (name_from_str name) (fun k nm => str_eqb (name_to_string k) (name_to_string nm)).
Definition b_has_attribute_ns (i : id) (uri local : str) : B bool := (* 733-757 *)
  b_has_attribute_in i (name_new_ns uri local) (fun k nm => ostr_eqb (nm_ns k) (nm_ns nm) && str_eqb (nm_local k) (nm_local nm)).

(** ** Namespaced (ext/namespaced.rs) *)
Definition b_contains_mapping (i : id) (p : option str) : B bool := (* 101-117 *)
  dob? b := b_add_namespaces i in
  if negb b then b_ret false else
  b_get (fun n => match hm_get p (own_namespaces n) with Some _ => true | None => false end) i.
Definition b_get_namespace (i : id) (p : option str) : B (option str) := (* 119-136 *)
  dob? b := b_add_namespaces i in
  if negb b then b_ret None else b_get (fun n => hm_get p (own_namespaces n)) i.
Definition b_get_prefix (E : env) (i : id) (uri : str) : B ns_prefix := (* 162-184 *)
  dob? b := b_add_namespaces i in
  if negb b then b_ret PfxNone else
  b_get (fun n => match find_first (fun kv => str_eqb kv.2 uri) (e_ord_ns E (own_namespaces n)) with
                  | None => PfxNone
                  | Some (Some k, _) => PfxSome k
                  | Some (None, _) => PfxDefault
                  end) i.
Definition b_contains_mapped (E : env) (i : id) (uri : str) : B bool := (* 158-160 *)
  dob? r := b_get_prefix E i uri in b_ret match r with PfxNone => false | _ => true end.
(** 138-156, 186-204: the guard to the node is held while the parent is asked. *)
Fixpoint b_resolve_namespace_rec (fuel : nat) (i : id) (p : option str) : B (option str) :=
  match fuel with
  | O => fun _ h => (h, Diverge)
  | S k =>
      dob? b := b_add_namespaces i in
      if negb b then b_ret None else
      dob? r := b_get_namespace i p in
      match r with
      | Some u => b_ret (Some u)
      | None =>
          borrow i (fun n =>
            match n_parent n with
            | None => b_ret None
            | Some q => dob? q := b_upgrade (Some q) in
                        dob? q := b_pure (unwrap_opt q) in
                        b_resolve_namespace_rec k q p
            end)
      end
  end.
Definition b_resolve_namespace (i : id) (p : option str) : B (option str) := fun g h =>
  b_resolve_namespace_rec (walk_fuel h) i p g h.
Fixpoint b_resolve_prefix_rec (fuel : nat) (E : env) (i : id) (uri : str) : B ns_prefix :=
  match fuel with
  | O => fun _ h => (h, Diverge)
  | S k =>
      dob? b := b_add_namespaces i in
      if negb b then b_ret PfxNone else
      dob? r := b_get_prefix E i uri in
      match r with
      | PfxNone =>
          borrow i (fun n =>
            match n_parent n with
            | None => b_ret PfxNone
            | Some q => dob? q := b_upgrade (Some q) in
                        dob? q := b_pure (unwrap_opt q) in
                        b_resolve_prefix_rec k E q uri
            end)
      | _ => b_ret r
      end
  end.
Definition b_resolve_prefix (E : env) (i : id) (uri : str) : B ns_prefix := fun g h =>
  b_resolve_prefix_rec (walk_fuel h) E i uri g h.

(** ** Display (shared/display.rs)

    The writers call the accessors one by one; none holds a guard while it writes a child. *)
Definition b_dt_fields : id -> B (list (Name * id) * list (Name * id) * option str * option str * option str) :=
  b_get (fun n => match n_ext n with XDocumentType e t p s x => (e, t, p, s, x) | _ => ([], [], None, None, None) end).
Definition b_fmt_list {A} (f : A -> B str) (l : list A) : B str := dob? parts := b_map f l in b_ret (concat parts).
Definition b_fmt_data (f : str -> str) (i : id) : B str := (* 38-50, 62-70 *)
  dob? _ := b_err_to_panic PUnwrap (b_as_char_data i) in
  dob? d := b_data i in b_ret match d with None => [] | Some s => f s end.
(** 11-183 *)
Fixpoint b_fmt_node (fuel : nat) (E : env) (i : id) : B str :=
  match fuel with
  | O => fun _ h => (h, Diverge)
  | S k =>
      dob? t := b_node_type i in
      match t with
      | NElement => (* 11-27 *)
          dob? _ := b_as_unwrap NElement i in
          dob? nm := b_node_name i in
          dob? attrs := b_attributes i in
          dob? a := b_fmt_list (fun p => dob? s := b_fmt_node k E p.2 in b_ret (lit " " ++ s)) (e_ord_attr E attrs) in
          dob? l := b_child_nodes i in
          dob? c := b_fmt_list (b_fmt_node k E) l in
          dob? nm2 := b_node_name i in
          b_ret (lit "<" ++ name_to_string nm ++ a ++ lit ">" ++ c ++ lit "</" ++ name_to_string nm2 ++ lit ">")
      | NAttribute => (* 29-36 *)
          dob? _ := b_as_unwrap NAttribute i in
          dob? nm := b_node_name i in
          dob? v := b_attr_value E i in
          b_ret (name_to_string nm ++ lit "=" ++ quoted (match v with Some s => s | None => [] end))
      | NText => b_fmt_data (fun s => s) i
      | NCData => b_fmt_data (fun s => lit "<![CDATA[ " ++ s ++ lit " ]]>") i
      | NComment => b_fmt_data (fun s => lit "<!--" ++ s ++ lit "-->") i
      | NProcessingInstruction => (* 52-60 *)
          dob? _ := b_as_unwrap NProcessingInstruction i in
          dob? d := b_node_value i in
          dob? nm := b_node_name i in
          b_ret match d with
                | None => lit "<?" ++ name_to_string nm ++ lit "?>"
                | Some d => lit "<?" ++ name_to_string nm ++ lit " " ++ d ++ lit "?>"
                end
      | NDocument => (* 72-83 *)
          dob? _ := b_as_unwrap NDocument i in
          dob? decl := b_xml_declaration i in
          dob? dt := b_doc_type i in
          dob? dts := match dt with None => b_ret [] | Some t => b_fmt_node k E t end in
          dob? l := b_child_nodes i in
          dob? c := b_fmt_list (b_fmt_node k E) l in
          b_ret (match decl with Some d => xml_decl_to_string d | None => [] end ++ dts ++ c)
      | NDocumentType => (* 85-109; with no entities and notations the two loops do nothing *)
          dob? _ := b_as_unwrap NDocumentType i in
          dob? nm := b_node_name i in
          dob? x := b_dt_fields i in
          let '(ents, nots, pub, sys, sub) := x in
          dob? es := b_fmt_list (fun p => b_fmt_node k E p.2) (e_ord_attr E ents) in
          dob? ns := b_fmt_list (fun p => b_fmt_node k E p.2) (e_ord_attr E nots) in
          b_ret (lit "<!DOCTYPE " ++ name_to_string nm ++ fmt_opt (lit "PUBLIC") pub ++ fmt_opt (lit "SYSTEM") sys
                 ++ (if negb (is_nil ents && is_nil nots)
                        || match sub with Some _ => true | None => false end
                     then lit "[" ++ es ++ ns ++ match sub with Some s => s | None => [] end ++ lit "]"
                     else [])
                 ++ lit ">")
      | NDocumentFragment => (* 111-120 *)
          dob? _ := b_as_unwrap NDocumentFragment i in
          dob? nm := b_node_name i in
          dob? l := b_child_nodes i in
          dob? c := b_fmt_list (b_fmt_node k E) l in
          b_ret (lit "<![CDATA[" ++ name_to_string nm ++ lit " " ++ c ++ lit "]]>")
      | NEntity => (* 122-138: accessors only *)
          dob? _ := b_as_unwrap NEntity i in b_get fmt_entity i
      | NEntityReference => (* 140-151 *)
          dob? _ := b_as_unwrap NEntityReference i in
          dob? nm := b_node_name i in b_ret (lit "&" ++ name_to_string nm ++ lit ";")
      | NNotation => (* 153-164: accessors only *)
          dob? _ := b_as_unwrap NNotation i in b_get fmt_notation i
      end
  end.
Definition b_to_string (E : env) (i : id) : B str := fun g h => b_fmt_node (S (walk_fuel h)) E i g h.

(** ** One query *)
Definition b_ans {A} (f : A -> answer) (m : B A) : B answer := dob? a := m in b_ret (f a).
Definition b_name_part {A} (f : Name -> A) (i : id) : B A := dob? n := b_node_name i in b_ret (f n).
Definition b_ask (E : env) (q : query) : B answer :=
  match q with
  | QIs T i => b_ans ABool (b_is_trait T i)
  | QAs T i => b_ans ANode (b_as_trait T i)
  | QNodeName i => b_ans AName (b_node_name i)
  | QNodeValue i => b_ans AOptStr (b_node_value i)
  | QNodeType i => b_ans AType (b_node_type i)
  | QParent i => b_ans AOptNode (b_parent_node i)
  | QChildren i => b_ans ANodes (b_child_nodes i)
  | QFirstChild i => b_ans AOptNode (b_get (fun n => head (n_children n)) i)
  | QLastChild i => b_ans AOptNode (b_get (fun n => last (n_children n)) i)
  | QPrevious i => b_ans AOptNode (b_previous_sibling i)
  | QNext i => b_ans AOptNode (b_next_sibling i)
  | QAttributes i => b_ans AMap (b_attributes i)
  | QOwnerDocument i => b_ans AOptNode (b_owner_document i)
  | QHasChildren i => b_ans ABool (b_has_child_nodes i)
  | QIsSupported i f v => b_ans ABool (dob? _ := b_handle i in b_ret (has_feature f v))
  | QHasAttributes i => b_ans ABool (b_has_attributes i)
  | QNamespaceUri i => b_ans AOptStr (b_name_part nm_ns i)
  | QLocalName i => b_ans AStr (b_name_part nm_local i)
  | QPrefix i => b_ans AOptStr (b_name_part nm_prefix i)
  | QToString i => b_ans AStr (b_to_string E i)
  | QSpecified i => b_ans ABool (dob? _ := b_handle i in b_ret true)
  | QOwnerElement i => b_ans AOptNode (b_owner_element i)
  | QValue i => b_ans AOptStr (b_attr_value E i)
  | QLength i => b_ans ANum (b_length i)
  | QData i => b_ans AOptStr (b_data i)
  | QSubstring i o c => b_ans AStr (b_substring_data E i o c)
  | QDocType i => b_ans AOptNode (b_doc_type i)
  | QDocumentElement i => b_ans AOptNode (b_document_element i)
  | QImplementation i => b_ans (fun _ => AUnit) (b_implementation i)
  | QById i k => b_ans AOptNode (b_get_element_by_id i k)
  | QDocByTag i t => b_ans ANodes (b_on_root (fun e => b_by_tag e t) i)
  | QDocByTagNs i u l => b_ans ANodes (b_on_root (fun e => b_by_tag_ns e u l) i)
  | QXmlDecl i => b_ans ADecl (b_xml_declaration i)
  | QEntities i => b_ans AMap (b_get (fun n => match n_ext n with XDocumentType e _ _ _ _ => e | _ => [] end) i)
  | QNotations i => b_ans AMap (b_get (fun n => match n_ext n with XDocumentType _ t _ _ _ => t | _ => [] end) i)
  | QDtPublic i => b_ans AOptStr (b_get (fun n => match n_ext n with XDocumentType _ _ p _ _ => p | _ => None end) i)
  | QDtSystem i => b_ans AOptStr (b_get (fun n => match n_ext n with XDocumentType _ _ _ s _ => s | _ => None end) i)
  | QSubset i => b_ans AOptStr (b_get (fun n => match n_ext n with XDocumentType _ _ _ _ x => x | _ => None end) i)
  | QEntPublic i => b_ans AOptStr (b_get (fun n => match n_ext n with XEntity p _ _ => p | _ => None end) i)
  | QEntSystem i => b_ans AOptStr (b_get (fun n => match n_ext n with XEntity _ s _ => s | _ => None end) i)
  | QEntNotation i => b_ans AOptStr (b_get (fun n => match n_ext n with XEntity _ _ x => x | _ => None end) i)
  | QNotPublic i => b_ans AOptStr (b_get (fun n => match n_ext n with XNotation p _ => p | _ => None end) i)
  | QNotSystem i => b_ans AOptStr (b_get (fun n => match n_ext n with XNotation _ s => s | _ => None end) i)
  | QTagName i => b_ans AStr (b_name_part name_to_string i)
  | QGetAttribute i n => b_ans AOptStr (b_get_attribute E i n)
  | QGetAttributeNode i n => b_ans AOptNode (b_get_attribute_node E i n)
  | QHasAttribute i n => b_ans ABool (b_has_attribute i n)
  | QGetAttributeNs i u l => b_ans AOptStr (b_get_attribute_ns E i u l)
  | QGetAttributeNodeNs i u l => b_ans AOptNode (b_get_attribute_node_ns E i u l)
  | QHasAttributeNs i u l => b_ans ABool (b_has_attribute_ns i u l)
  | QByTag i t => b_ans ANodes (b_by_tag i t)
  | QByTagNs i u l => b_ans ANodes (b_by_tag_ns i u l)
  | QTarget i => b_ans AStr (b_name_part name_to_string i)
  | QPiData i => b_ans AOptStr (b_node_value i)
  | QPiLength i => b_ans ANum (dob? d := b_node_value i in b_ret match d with None => 0%N | Some s => blen s end)
  | QContainsMapping i p => b_ans ABool (b_contains_mapping i p)
  | QGetNamespace i p => b_ans AOptStr (b_get_namespace i p)
  | QResolveNamespace i p => b_ans AOptStr (b_resolve_namespace i p)
  | QContainsMapped i u => b_ans ABool (b_contains_mapped E i u)
  | QGetPrefix i u => b_ans APrefix (b_get_prefix E i u)
  | QResolvePrefix i u => b_ans APrefix (b_resolve_prefix E i u)
  end.
