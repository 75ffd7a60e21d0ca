(** * NameModel: src/shared/name.rs *)
From Verif Require Export TextModel.

(** name.rs 68-75: [Display for Name]. *)
Definition name_to_string (n : Name) : str :=
  match nm_prefix n with
  | Some p => p ++ [C_COLON] ++ nm_local n
  | None => nm_local n
  end.

Definition is_nil {A} (l : list A) : bool := match l with [] => true | _ => false end.

(** name.rs 142-168: [Name::new]. *)
Definition name_new (local : str) (prefix ns : option str) : res Name :=
  if is_nil local then Err Syntax
  else if match prefix with Some p => is_nil p | None => false end then Err Syntax
  else if match ns with Some u => is_nil u | None => false end then Err Syntax
  else Ok (mkName ns prefix local).

(** name.rs 170-179: [Name::check_part]. *)
Definition check_part (part : str) : res str :=
  if is_nil part then Err Syntax
  else let? b := is_xml_name part in if b then Ok part else Err InvalidCharacter.

(** name.rs 79-101: [Name::from_str]. *)
Definition name_from_str (value : str) : res Name :=
  if is_nil value then Err Syntax
  else match split_on C_COLON value with
       | [local] => let? l := check_part local in name_new l None None
       | [prefix; local] =>
           let? l := check_part local in
           let? p := check_part prefix in
           name_new l (Some p) None
       | _ => Err Syntax
       end.

(** name.rs 181-208: [Name::check_namespace_uri]. *)
Definition check_namespace_uri (uri : str) (prefix : option str) (local : str) : res str :=
  let bad (part : str) : bool :=
    (str_eqb part XML_NS_ATTRIBUTE && negb (str_eqb uri XML_NS_URI))
    || (str_eqb part XMLNS_NS_ATTRIBUTE && negb (str_eqb uri XMLNS_NS_URI)) in
  if is_nil uri then Err Syntax
  else if match prefix with Some p => bad p | None => false end then Err Namespace
  else if bad local then Err Namespace
  else Ok uri.

(** name.rs 127-135: [Name::new_ns]. *)
Definition name_new_ns (uri qname : str) : res Name :=
  let? n := name_from_str qname in
  let? u := check_namespace_uri uri (nm_prefix n) (nm_local n) in
  Ok (mkName (Some u) (nm_prefix n) (nm_local n)).

(** name.rs 213-262: the reserved node names. *)
Definition name_for_cdata := mkName None None XML_NAME_CDATA.
Definition name_for_comment := mkName None None XML_NAME_COMMENT.
Definition name_for_document := mkName None None XML_NAME_DOCUMENT.
Definition name_for_document_fragment := mkName None None XML_NAME_DOCUMENT_FRAGMENT.
Definition name_for_text := mkName None None XML_NAME_TEXT.

(** name.rs 302-308. *)
Definition is_namespace_attribute (n : Name) : bool :=
  ostr_eqb (nm_ns n) (Some XMLNS_NS_URI)
  && ((str_eqb (nm_local n) XMLNS_NS_ATTRIBUTE && ostr_eqb (nm_prefix n) None)
      || ostr_eqb (nm_prefix n) (Some XMLNS_NS_ATTRIBUTE)).

(** name.rs 313-320. *)
Definition name_for_namespace (prefix : option str) : res Name :=
  match prefix with
  | None => unwrap_res (name_new XMLNS_NS_ATTRIBUTE None (Some XMLNS_NS_URI))
  | Some p => unwrap_res (name_new p (Some XMLNS_NS_ATTRIBUTE) (Some XMLNS_NS_URI))
  end.

(** name.rs 325-340. *)
Definition is_id_attribute (n : Name) (lax : bool) : bool :=
  if lax then str_eqb (nm_local n) XML_NS_ATTR_ID
  else str_eqb (nm_local n) XML_NS_ATTR_ID
       && (ostr_eqb (nm_ns n) (Some XML_NS_URI) || ostr_eqb (nm_prefix n) (Some XML_NS_ATTRIBUTE)).

(** name.rs 345-351. *)
Definition name_for_xml_id := mkName (Some XML_NS_URI) (Some XML_NS_ATTRIBUTE) XML_NS_ATTR_ID.

(** name.rs 377-380: no validation at all. *)
Definition name_set_prefix (n : Name) (p : option str) : Name := mkName (nm_ns n) p (nm_local n).
