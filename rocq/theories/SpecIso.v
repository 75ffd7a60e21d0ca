(** * SpecIso: states that look alike, and programs that share no nodes *)
From Verif Require Export Access.

(** ** Correspondence of states

    [R a b]: node [a] of the first state corresponds to node [b] of the second. *)
Definition map_rel {K} (R : id -> id -> Prop) : list (K * id) -> list (K * id) -> Prop :=
  Forall2 (fun p q => p.1 = q.1 /\ R p.2 q.2).
Inductive ext_rel (R : id -> id -> Prop) : extension -> extension -> Prop :=
| er_none : ext_rel R XNone XNone
| er_attribute o o' : option_Forall2 R o o' -> ext_rel R (XAttribute o) (XAttribute o')
| er_document d t t' m m' o : option_Forall2 R t t' -> map_rel R m m' -> ext_rel R (XDocument d t m o) (XDocument d t' m' o)
| er_doctype e e' n n' p s x : map_rel R e e' -> map_rel R n n' -> ext_rel R (XDocumentType e n p s x) (XDocumentType e' n' p s x)
| er_element a a' ns : map_rel R a a' -> ext_rel R (XElement a ns) (XElement a' ns)
| er_entity p s x : ext_rel R (XEntity p s x) (XEntity p s x)
| er_notation p s : ext_rel R (XNotation p s) (XNotation p s).
(** Two nodes with the same type, name, value and texts, and corresponding links. *)
Record node_rel (R : id -> id -> Prop) (n n' : node) : Prop := {
  nr_type : n_type n = n_type n';
  nr_name : n_name n = n_name n';
  nr_value : n_value n = n_value n';
  nr_parent : option_Forall2 R (n_parent n) (n_parent n');
  nr_owner : option_Forall2 R (n_owner n) (n_owner n');
  nr_children : Forall2 R (n_children n) (n_children n');
  nr_ext : ext_rel R (n_ext n) (n_ext n') }.
Definition outside (R : id -> id -> Prop) (a : id) : Prop := forall b, ~ R a b.
Definition outside' (R : id -> id -> Prop) (b : id) : Prop := forall a, ~ R a b.
(** [R] pairs part of [h] with part of [h']: one to one, dead nodes with dead nodes, live nodes with nodes
    that look alike.  A part is closed under links, and no node outside it holds one of its nodes. *)
Record alike (R : id -> id -> Prop) (h h' : heap) : Prop := {
  al_fun : forall a b b', R a b -> R a b' -> b = b';
  al_inj : forall a a' b, R a b -> R a' b -> a = a';
  al_lt : forall a b, R a b -> (a < h_next h)%nat /\ (b < h_next h')%nat;
  al_node : forall a b, R a b -> option_Forall2 (node_rel R) (h_nodes h !! a) (h_nodes h' !! b);
  al_live : forall a n, h_nodes h !! a = Some n -> (a < h_next h)%nat;
  al_live' : forall b n, h_nodes h' !! b = Some n -> (b < h_next h')%nat;
  al_out : forall a n, h_nodes h !! a = Some n -> outside R a -> forall r, In r (strong_refs n) -> outside R r /\ (r < h_next h)%nat;
  al_out' : forall b n, h_nodes h' !! b = Some n -> outside' R b -> forall r, In r (strong_refs n) -> outside' R r /\ (r < h_next h')%nat }.

(** From [R] to [R1], while the states went from [h] and [h'] to [h1] and [h1']: the same number of nodes was made,
    the k-th on one side corresponds to the k-th on the other, and nothing outside [R] changed. *)
Record grows (R : id -> id -> Prop) (h h' : heap) (R1 : id -> id -> Prop) (h1 h1' : heap) : Prop := {
  gr_rel : exists d, h_next h1 = (h_next h + d)%nat /\ h_next h1' = (h_next h' + d)%nat /\
             forall a b, R1 a b <-> R a b \/ exists k, (k < d)%nat /\ a = (h_next h + k)%nat /\ b = (h_next h' + k)%nat;
  gr_frame : forall a, (a < h_next h)%nat -> outside R a -> h_nodes h1 !! a = h_nodes h !! a;
  gr_frame' : forall b, (b < h_next h')%nat -> outside' R b -> h_nodes h1' !! b = h_nodes h' !! b }.

Definition res_rel {A} (RA : A -> A -> Prop) (r r' : res A) : Prop :=
  match r, r' with
  | Ok a, Ok a' => RA a a'
  | Err e, Err e' => e = e'
  | Panic p, Panic p' => p = p'
  | Diverge, Diverge => True
  | _, _ => False
  end.

(** Hash maps are walked in an order that depends on the keys, not on the nodes stored. *)
Definition ordered_by_keys (E : env) : Prop := forall R l l', map_rel R l l' -> map_rel R (e_ord_attr E l) (e_ord_attr E l').

(** ** The same call on other nodes *)
Section rename.
  Context (f : id -> id).
  Definition rename (o : op) : op :=
    match o with
    | OCreateDocument u q t x => OCreateDocument u q (option_map f t) x
    | OCreateDocumentType q p s => OCreateDocumentType q p s
    | OReadXml evs => OReadXml evs
    | OCreateElement d n => OCreateElement (f d) n
    | OCreateElementNs d u q => OCreateElementNs (f d) u q
    | OCreateAttribute d n => OCreateAttribute (f d) n
    | OCreateAttributeWith d n v => OCreateAttributeWith (f d) n v
    | OCreateAttributeNs d u q => OCreateAttributeNs (f d) u q
    | OCreateText d s => OCreateText (f d) s
    | OCreateCData d s => OCreateCData (f d) s
    | OCreateComment d s => OCreateComment (f d) s
    | OCreatePI d t s => OCreatePI (f d) t s
    | OCreateFragment d => OCreateFragment (f d)
    | OCreateEntityReference d n => OCreateEntityReference (f d) n
    | OCreateNotation d n p s => OCreateNotation (f d) n p s
    | OCreateEntity d n p s => OCreateEntity (f d) n p s
    | OCreateInternalEntity d n v => OCreateInternalEntity (f d) n v
    | OInsertBefore p c r => OInsertBefore (f p) (f c) (option_map f r)
    | OAppendChild p c => OAppendChild (f p) (f c)
    | OReplaceChild p n x => OReplaceChild (f p) (f n) (f x)
    | ORemoveChild p c => ORemoveChild (f p) (f c)
    | OClone d i => OClone d (f i)
    | ONormalize i => ONormalize (f i)
    | OSetNodeValue i v => OSetNodeValue (f i) v
    | OUnsetNodeValue i => OUnsetNodeValue (f i)
    | OAppendData i s => OAppendData (f i) s
    | OInsertData i x s => OInsertData (f i) x s
    | ODeleteData i x c => ODeleteData (f i) x c
    | OReplaceData i x c s => OReplaceData (f i) x c s
    | OSplit i x => OSplit (f i) x
    | OAttrSetValue i v => OAttrSetValue (f i) v
    | OAttrUnsetValue i => OAttrUnsetValue (f i)
    | OSetAttribute e n v => OSetAttribute (f e) n v
    | OSetAttributeNs e u q v => OSetAttributeNs (f e) u q v
    | OSetAttributeNode e a => OSetAttributeNode (f e) (f a)
    | ORemoveAttribute e n => ORemoveAttribute (f e) n
    | ORemoveAttributeNs e u l => ORemoveAttributeNs (f e) u l
    | ORemoveAttributeNode e a => ORemoveAttributeNode (f e) (f a)
    | OSetXmlDecl d x => OSetXmlDecl (f d) x
    | ODrop l => ODrop (map f l)
    end.
  Definition rename_query (q : query) : query :=
    match q with
    | QIs T i => QIs T (f i) | QAs T i => QAs T (f i)
    | QNodeName i => QNodeName (f i) | QNodeValue i => QNodeValue (f i) | QNodeType i => QNodeType (f i)
    | QParent i => QParent (f i) | QChildren i => QChildren (f i) | QFirstChild i => QFirstChild (f i)
    | QLastChild i => QLastChild (f i) | QPrevious i => QPrevious (f i) | QNext i => QNext (f i)
    | QAttributes i => QAttributes (f i) | QOwnerDocument i => QOwnerDocument (f i) | QHasChildren i => QHasChildren (f i)
    | QIsSupported i a v => QIsSupported (f i) a v | QHasAttributes i => QHasAttributes (f i)
    | QNamespaceUri i => QNamespaceUri (f i) | QLocalName i => QLocalName (f i) | QPrefix i => QPrefix (f i)
    | QToString i => QToString (f i)
    | QSpecified i => QSpecified (f i) | QOwnerElement i => QOwnerElement (f i) | QValue i => QValue (f i)
    | QLength i => QLength (f i) | QData i => QData (f i) | QSubstring i o c => QSubstring (f i) o c
    | QDocType i => QDocType (f i) | QDocumentElement i => QDocumentElement (f i) | QImplementation i => QImplementation (f i)
    | QById i k => QById (f i) k | QDocByTag i t => QDocByTag (f i) t | QDocByTagNs i u l => QDocByTagNs (f i) u l
    | QXmlDecl i => QXmlDecl (f i)
    | QEntities i => QEntities (f i) | QNotations i => QNotations (f i) | QDtPublic i => QDtPublic (f i)
    | QDtSystem i => QDtSystem (f i) | QSubset i => QSubset (f i) | QEntPublic i => QEntPublic (f i)
    | QEntSystem i => QEntSystem (f i) | QEntNotation i => QEntNotation (f i) | QNotPublic i => QNotPublic (f i)
    | QNotSystem i => QNotSystem (f i)
    | QTagName i => QTagName (f i) | QGetAttribute i n => QGetAttribute (f i) n
    | QGetAttributeNode i n => QGetAttributeNode (f i) n | QHasAttribute i n => QHasAttribute (f i) n
    | QGetAttributeNs i u l => QGetAttributeNs (f i) u l | QGetAttributeNodeNs i u l => QGetAttributeNodeNs (f i) u l
    | QHasAttributeNs i u l => QHasAttributeNs (f i) u l
    | QByTag i t => QByTag (f i) t | QByTagNs i u l => QByTagNs (f i) u l
    | QTarget i => QTarget (f i) | QPiData i => QPiData (f i) | QPiLength i => QPiLength (f i)
    | QContainsMapping i p => QContainsMapping (f i) p | QGetNamespace i p => QGetNamespace (f i) p
    | QResolveNamespace i p => QResolveNamespace (f i) p | QContainsMapped i u => QContainsMapped (f i) u
    | QGetPrefix i u => QGetPrefix (f i) u | QResolvePrefix i u => QResolvePrefix (f i) u
    end.
  Definition rename_answer (a : answer) : answer :=
    match a with
    | ANode i => ANode (f i)
    | AOptNode i => AOptNode (option_map f i)
    | ANodes l => ANodes (map f l)
    | AMap m => AMap (map (fun p => (p.1, f p.2)) m)
    | _ => a
    end.
  Definition rename_res {A} (g : A -> A) (r : res A) : res A :=
    match r with Ok a => Ok (g a) | Err e => Err e | Panic p => Panic p | Diverge => Diverge end.
End rename.
(** The nodes a call or a query is given. *)
Definition given (o : op) : list id :=
  match o with
  | OCreateDocument _ _ (Some t) _ => [t]
  | OCreateElement d _ | OCreateElementNs d _ _ | OCreateAttribute d _ | OCreateAttributeWith d _ _
  | OCreateAttributeNs d _ _ | OCreateText d _ | OCreateCData d _ | OCreateComment d _ | OCreatePI d _ _
  | OCreateFragment d | OCreateEntityReference d _ | OCreateNotation d _ _ _ | OCreateEntity d _ _ _
  | OCreateInternalEntity d _ _ | OClone _ d => [d]
  | OInsertBefore p c (Some r) => [p; c; r]
  | ODrop l => l
  | _ => match o with
         | OInsertBefore p c None | OAppendChild p c | ORemoveChild p c | OSetAttributeNode p c | ORemoveAttributeNode p c => [p; c]
         | OReplaceChild p c x => [p; c; x]
         | ONormalize i | OSetNodeValue i _ | OUnsetNodeValue i | OAppendData i _ | OInsertData i _ _ | ODeleteData i _ _
         | OReplaceData i _ _ _ | OSplit i _ | OAttrSetValue i _ | OAttrUnsetValue i | OSetAttribute i _ _ | OSetAttributeNs i _ _ _
         | ORemoveAttribute i _ | ORemoveAttributeNs i _ _ | OSetXmlDecl i _ => [i]
         | _ => []
         end
  end.
Definition asked (q : query) : id :=
  match q with
  | QIs _ i | QAs _ i | QNodeName i | QNodeValue i | QNodeType i | QParent i | QChildren i | QFirstChild i | QLastChild i
  | QPrevious i | QNext i | QAttributes i | QOwnerDocument i | QHasChildren i | QIsSupported i _ _ | QHasAttributes i
  | QNamespaceUri i | QLocalName i | QPrefix i | QToString i | QSpecified i | QOwnerElement i | QValue i | QLength i
  | QData i | QSubstring i _ _ | QDocType i | QDocumentElement i | QImplementation i | QById i _ | QDocByTag i _
  | QDocByTagNs i _ _ | QXmlDecl i | QEntities i | QNotations i | QDtPublic i | QDtSystem i | QSubset i | QEntPublic i
  | QEntSystem i | QEntNotation i | QNotPublic i | QNotSystem i | QTagName i | QGetAttribute i _ | QGetAttributeNode i _
  | QHasAttribute i _ | QGetAttributeNs i _ _ | QGetAttributeNodeNs i _ _ | QHasAttributeNs i _ _ | QByTag i _ | QByTagNs i _ _
  | QTarget i | QPiData i | QPiLength i | QContainsMapping i _ | QGetNamespace i _ | QResolveNamespace i _
  | QContainsMapped i _ | QGetPrefix i _ | QResolvePrefix i _ => i
  end.

(** ** Programs that share no nodes

    Two clients make calls in turn.  A node belongs to the client whose call made it; [own] lists the clients in the
    order of the nodes made.  A client only uses its own nodes.  Each call has its own environment (hash orders).  A
    call that panics is caught and the program goes on; a call that never returns ends the run. *)
Definition call : Type := env * op.
Fixpoint together (tr : list (bool * call)) (h : heap) (own : list bool) : option (heap * list bool * list (bool * res (option id))) :=
  match tr with
  | [] => Some (h, own, [])
  | (c, (E, o)) :: t =>
      if forallb (fun i => bool_decide (own !! i = Some c)) (given o) then
        match exec E o h with
        | (_, Diverge) => None
        | (h1, r) =>
            match together t h1 (own ++ repeat c (h_next h1 - h_next h)) with
            | Some (h2, own2, rs) => Some (h2, own2, (c, r) :: rs)
            | None => None
            end
        end
      else None
  end.
(** One client alone. *)
Fixpoint alone (tr : list call) (h : heap) : option (heap * list (res (option id))) :=
  match tr with
  | [] => Some (h, [])
  | (E, o) :: t =>
      match exec E o h with
      | (_, Diverge) => None
      | (h1, r) => match alone t h1 with Some (h2, rs) => Some (h2, r :: rs) | None => None end
      end
  end.
Definition of_client {A} (c : bool) (l : list (bool * A)) : list A := map snd (filter (fun p => p.1 = c) l).
(** The identity a node of [c] has when [c] runs alone: how many nodes [c] made before it. *)
Definition rank (own : list bool) (c : bool) (a : id) : id := length (filter (fun x => x = c) (take a own)).
