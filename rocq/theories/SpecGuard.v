(** * SpecGuard: guards held by the caller *)
From Verif Require Export BorrowAsk SpecIso SpecBorrow.

(** [a] is what happens with more guards held, [b] with fewer: the same, or a borrow panic. *)
Definition refuses {A} (a b : heap * res A) : Prop := a = b \/ exists h, a = (h, Panic PBorrow).
Definition shared_only (G : guards) : Prop := forall i, (i, true) ∉ G.
Definition holds (G : guards) (i : id) : Prop := exists b, (i, b) ∈ G.

(** The nodes a node refers to, by strong and weak references. *)
Definition ext_links (x : extension) : list id :=
  match x with
  | XNone | XEntity _ _ _ | XNotation _ _ => []
  | XAttribute o => match o with Some i => [i] | None => [] end
  | XDocument _ t m _ => match t with Some i => [i] | None => [] end ++ map snd m
  | XDocumentType e n _ _ _ => map snd e ++ map snd n
  | XElement a _ => map snd a
  end.
Definition node_links (n : node) : list id :=
  n_children n ++ match n_parent n with Some i => [i] | None => [] end ++ match n_owner n with Some i => [i] | None => [] end ++ ext_links (n_ext n).
(** A part of the state: closed under links, and with all the nodes still to be made. *)
Definition part (S : id -> Prop) (h : heap) : Prop :=
  (forall i n, S i -> h_nodes h !! i = Some n -> forall j, In j (node_links n) -> S j) /\ forall k, (h_next h <= k)%nat -> S k.

(** The queries that do not look at the node they are asked of. *)
Definition blind_query (E : env) (q : query) : Prop :=
  match q with
  | QIsSupported _ _ _ | QSpecified _ => True
  | QSubstring _ o c => match usize_add (e_checked E) o c with Ok e => e = o | _ => True end
  | _ => False
  end.
(** The calls that only write the node they are given. *)
Definition writes_only (E : env) (o : op) : option id :=
  match o with
  | OSetNodeValue i _ | OUnsetNodeValue i | OReplaceData i _ _ _ | OAttrUnsetValue i | OSetXmlDecl i _ => Some i
  | OAppendData i s | OInsertData i _ s => if is_nil s then None else Some i
  | ODeleteData i o c => match usize_add (e_checked E) o c with Ok e => if (e =? o)%N then None else Some i | _ => None end
  | _ => None
  end.
