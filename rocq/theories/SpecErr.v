(** * SpecErr: which errors a call can return, and what it has done by then *)
From Verif Require Export SpecFrame.

(** The errors of the name constructors. *)
Definition plain_errors : list error := [Syntax; InvalidCharacter].
Definition ns_errors : list error := [Syntax; InvalidCharacter; Namespace].
Definition error_kinds (o : op) : list error :=
  match o with
  | OCreateDocument u q _ _ =>
      match u, q with Some _, Some _ => ns_errors | None, Some _ => plain_errors | Some _, None => [Namespace] | None, None => [] end
  | OCreateDocumentType _ _ _ | OCreateElement _ _ | OCreateAttribute _ _ | OCreateAttributeWith _ _ _ | OCreatePI _ _ _
  | OCreateEntityReference _ _ | OCreateNotation _ _ _ _ | OCreateEntity _ _ _ _ | OCreateInternalEntity _ _ _
  | OSetAttribute _ _ _ => plain_errors
  | OCreateElementNs _ _ _ | OCreateAttributeNs _ _ _ | OSetAttributeNs _ _ _ _ => ns_errors
  | OInsertBefore _ _ _ | OAppendChild _ _ | OReplaceChild _ _ _ => [HierarchyRequest; NotFound; WrongDocument]
  | ORemoveChild _ _ => [NotFound]
  | OInsertData _ _ _ | ODeleteData _ _ _ | OReplaceData _ _ _ _ => [IndexSize]
  | OSplit _ _ => [IndexSize; Syntax]
  | OSetAttributeNode _ _ => [InvalidState; WrongDocument; Syntax]
  | OReadXml _ => [HierarchyRequest; Syntax; InvalidCharacter]
  | _ => []
  end.
(** The document of element [e] has [v] registered as an identifier. *)
Definition registered_id (h : heap) (e : id) (v : str) : Prop :=
  exists ne d nd decl dt ids o x, h_nodes h !! e = Some ne /\ n_owner ne = Some d /\ h_nodes h !! d = Some nd /\
    n_ext nd = XDocument decl dt ids o /\ In (v, x) ids.
(** The failures that come after a change: a replacement whose second half is refused, an identifier used twice, a comment that has
    been cut. *)
Definition half_done (h : heap) (o : op) (e : error) : Prop :=
  match o with
  | OReplaceChild p _ old => has_child h p old
  | OSetAttribute i _ _ | OSetAttributeNs i _ _ _ | OSetAttributeNode i _ => e = Syntax /\ exists v, registered_id h i v
  | OSplit i _ => exists n, h_nodes h !! i = Some n /\ n_type n = NComment /\ e = Syntax
  | _ => False
  end.
