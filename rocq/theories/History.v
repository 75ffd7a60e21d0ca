(** * History: sequences of API calls

    [op] lists every public call that changes state; [exec] runs one.  A history is any list of
    calls; a call that panics (or overflows the stack) ends it. *)
From Verif Require Export Parser.

Inductive op :=
(* DOMImplementation, ext *)
| OCreateDocument (uri qname : option str) (dt : option id) (o : options)
| OCreateDocumentType (qname : str) (pub sys : option str)
| OReadXml (evs : list event)
(* Document factories and ext::dom_impl *)
| OCreateElement (d : id) (name : str)
| OCreateElementNs (d : id) (uri qname : str)
| OCreateAttribute (d : id) (name : str)
| OCreateAttributeWith (d : id) (name value : str)
| OCreateAttributeNs (d : id) (uri qname : str)
| OCreateText (d : id) (s : str)
| OCreateCData (d : id) (s : str)
| OCreateComment (d : id) (s : str)
| OCreatePI (d : id) (target : str) (s : option str)
| OCreateFragment (d : id)
| OCreateEntityReference (d : id) (name : str)
| OCreateNotation (d : id) (name : str) (pub sys : option str)
| OCreateEntity (d : id) (name : str) (pub sys : option str)
| OCreateInternalEntity (d : id) (name value : str)
(* Node *)
| OInsertBefore (p c : id) (r : option id)
| OAppendChild (p c : id)
| OReplaceChild (p new old : id)
| ORemoveChild (p c : id)
| OClone (deep : bool) (i : id)
| ONormalize (i : id)
| OSetNodeValue (i : id) (v : str)
| OUnsetNodeValue (i : id)
(* CharacterData, Text *)
| OAppendData (i : id) (s : str)
| OInsertData (i : id) (off : N) (s : str)
| ODeleteData (i : id) (off cnt : N)
| OReplaceData (i : id) (off cnt : N) (s : str)
| OSplit (i : id) (off : N)
(* Attribute *)
| OAttrSetValue (i : id) (v : str)
| OAttrUnsetValue (i : id)
(* Element *)
| OSetAttribute (e : id) (name value : str)
| OSetAttributeNs (e : id) (uri qname value : str)
| OSetAttributeNode (e a : id)
| ORemoveAttribute (e : id) (name : str)
| ORemoveAttributeNs (e : id) (uri local : str)
| ORemoveAttributeNode (e a : id)
(* DocumentDecl *)
| OSetXmlDecl (d : id) (x : xml_decl)
(* The last handles to some nodes go away *)
| ODrop (l : list id).

(** The [Rc]s a node holds. *)
Definition ext_refs (x : extension) : list id :=
  match x with
  | XDocument _ (Some t) _ _ => [t]
  | XDocumentType e t _ _ _ => map snd e ++ map snd t
  | XElement a _ => map snd a
  | _ => []
  end.
Definition strong_refs (n : node) : list id := n_children n ++ ext_refs (n_ext n).

(** A set of nodes can be freed when no surviving node holds one of them.  (This is more liberal than
    reference counting: it also frees unreachable cycles, which Rust would leak.) *)
Definition can_drop (h : heap) (l : list id) : Prop :=
  map_Forall (fun i n => i ∈ l \/ Forall (fun r => r ∉ l) (strong_refs n)) (h_nodes h).
#[global] Instance can_drop_dec h l : Decision (can_drop h l).
Proof. unfold can_drop. apply _. Defined.
Definition drop_nodes (l : list id) : M unit := fun h =>
  if bool_decide (can_drop h l)
  then (mkHeap (foldr delete (h_nodes h) l) (h_next h), Ok tt)
  else (h, Panic PNoHandle).

Definition out {A} (f : A -> option id) (m : M A) : M (option id) := do? x := m in ret (f x).
Definition no_id {A} : A -> option id := fun _ => None.

(** A parser failure is an ordinary [Err] for the history; the nodes built so far are garbage. *)
Definition read_xml_op (E : env) (evs : list event) : M (option id) := fun h =>
  match read_events E evs h with
  | (h', POk d) => (h', Ok (Some d))
  | (h', PErr (PEDom e)) => (h', Err e)
  | (h', PErr _) => (h', Err Syntax)
  | (h', PPanic p) => (h', Panic p)
  | (h', PDiverge) => (h', Diverge)
  end.

Definition exec (E : env) (o : op) : M (option id) :=
  match o with
  | OCreateDocument u q t o => out Some (create_document_with_options u q t o)
  | OCreateDocumentType q p s => out Some (create_document_type q p s)
  | OReadXml evs => read_xml_op E evs
  | OCreateElement d n => out Some (create_element d n)
  | OCreateElementNs d u q => out Some (create_element_ns d u q)
  | OCreateAttribute d n => out Some (create_attribute d n)
  | OCreateAttributeWith d n v => out Some (create_attribute_with d n v)
  | OCreateAttributeNs d u q => out Some (create_attribute_ns d u q)
  | OCreateText d s => out Some (create_text_node d s)
  | OCreateCData d s => out Some (create_cdata_section d s)
  | OCreateComment d s => out Some (create_comment d s)
  | OCreatePI d t s => out Some (create_processing_instruction d t s)
  | OCreateFragment d => out Some (create_document_fragment d)
  | OCreateEntityReference d n => out Some (create_entity_reference d n)
  | OCreateNotation d n p s => out Some (create_notation d n p s)
  | OCreateEntity d n p s => out Some (create_entity d n p s)
  | OCreateInternalEntity d n v => out Some (create_internal_entity d n v)
  | OInsertBefore p c r => out Some (insert_before p c r)
  | OAppendChild p c => out Some (append_child p c)
  | OReplaceChild p n o => out Some (replace_child p n o)
  | ORemoveChild p c => out Some (remove_child p c)
  | OClone d i => out Some (clone_node d i)
  | ONormalize i => out no_id (normalize i)
  | OSetNodeValue i v => out no_id (set_node_value i v)
  | OUnsetNodeValue i => out no_id (unset_node_value i)
  | OAppendData i s => out no_id (append_data i s)
  | OInsertData i o s => out no_id (insert_data E i o s)
  | ODeleteData i o c => out no_id (delete_data E i o c)
  | OReplaceData i o c s => out no_id (replace_data E i o c s)
  | OSplit i o => out Some (split E i o)
  | OAttrSetValue i v => out no_id (attr_set_value i v)
  | OAttrUnsetValue i => out no_id (attr_unset_value i)
  | OSetAttribute e n v => out no_id (set_attribute E e n v)
  | OSetAttributeNs e u q v => out no_id (set_attribute_ns E e u q v)
  | OSetAttributeNode e a => out Some (set_attribute_node E e a)
  | ORemoveAttribute e n => out no_id (remove_attribute E e n)
  | ORemoveAttributeNs e u l => out no_id (remove_attribute_ns E e u l)
  | ORemoveAttributeNode e a => out Some (remove_attribute_node e a)
  | OSetXmlDecl d x => out no_id (set_xml_declaration d x)
  | ODrop l => out no_id (drop_nodes l)
  end.

(** The node whose trait method is called, and the types for which [convert.rs] hands out that trait
    (for [split], the types the code itself accepts). *)
Definition typed_op (h : heap) (o : op) : bool :=
  let has (i : id) (p : node_type -> bool) :=
    match h_nodes h !! i with Some n => p (n_type n) | None => false end in
  match o with
  | OCreateElement d _ | OCreateElementNs d _ _ | OCreateAttribute d _ | OCreateAttributeWith d _ _
  | OCreateAttributeNs d _ _ | OCreateText d _ | OCreateCData d _ | OCreateComment d _
  | OCreatePI d _ _ | OCreateFragment d | OCreateEntityReference d _ | OCreateNotation d _ _ _
  | OCreateEntity d _ _ _ | OCreateInternalEntity d _ _ | OSetXmlDecl d _ =>
      has d (type_eqb NDocument)
  | OCreateDocument _ _ (Some t) _ => has t (type_eqb NDocumentType)
  | OAppendData i _ | OInsertData i _ _ | ODeleteData i _ _ | OReplaceData i _ _ _ =>
      has i (fun t => type_eqb NText t || type_eqb NCData t || type_eqb NComment t)
  | OSplit i _ => has i (fun t => type_eqb NText t || type_eqb NCData t || type_eqb NComment t)
  | OAttrSetValue i _ | OAttrUnsetValue i => has i (type_eqb NAttribute)
  | OSetAttribute e _ _ | OSetAttributeNs e _ _ _ | OSetAttributeNode e _ | ORemoveAttribute e _
  | ORemoveAttributeNs e _ _ | ORemoveAttributeNode e _ => has e (type_eqb NElement)
  | _ => true
  end.

(** What is assumed of the environment: hash maps iterate over their entries in some order, each once;
    on ASCII, [\pL] is the letters and [\d] the digits, and neither contains NEL or LINE SEPARATOR
    (Unicode categories Cc and Zl). *)
Record wf_env (E : env) : Prop := {
  wf_ord_attr : forall l, e_ord_attr E l ≡ₚ l;
  wf_ord_ns : forall l, e_ord_ns E l ≡ₚ l;
  wf_letter : forall c, (c < 128)%N -> e_letter E c = is_ascii_uppercase c || is_ascii_lowercase c;
  wf_digit : forall c, (c < 128)%N -> e_digit E c = is_ascii_digit c;
  wf_line_end : forall c, c = 133%N \/ c = 8232%N -> e_letter E c = false /\ e_digit E c = false }.

(** One step of a history: the call returned ([Ok] or [Err]). *)
Definition step (h : heap) (o : op) (h' : heap) : Prop :=
  typed_op h o = true /\ exists E r, wf_env E /\ exec E o h = (h', r) /\
    match r with Ok _ | Err _ => True | Panic _ | Diverge => False end.

(** Heaps reachable by some history from the empty heap.  (The environment may differ from call to
    call: hash orders do.) *)
Inductive reachable : heap -> Prop :=
| reach_nil : reachable empty_heap
| reach_step h o h' : reachable h -> step h o h' -> reachable h'.

(** A concrete environment for examples: ASCII classes, maps iterate in insertion order. *)
Definition env0 : env :=
  mkEnv true (fun c => is_ascii_uppercase c || is_ascii_lowercase c) is_ascii_digit (fun l => l) (fun l => l).
Lemma wf_env0 : wf_env env0.
Proof. split; try done. by intros c [->| ->]. Qed.

(** Running a history in one environment; [None] if a call is ill-typed, panics or does not return. *)
Fixpoint run (E : env) (ops : list op) (h : heap) : option heap :=
  match ops with
  | [] => Some h
  | o :: t =>
      if typed_op h o then
        match exec E o h with
        | (h', Ok _) | (h', Err _) => run E t h'
        | _ => None
        end
      else None
  end.
Lemma run_reachable ops h h' : reachable h -> run env0 ops h = Some h' -> reachable h'.
Proof.
  revert h. induction ops as [|o ops IH]; intros h Hr H; cbn in H; [congruence|].
  destruct (typed_op h o) eqn:Ht; [|done].
  destruct (exec env0 o h) as [h1 r] eqn:He.
  destruct r; try done; (eapply IH; [|exact H]); (eapply reach_step; [exact Hr|]); split; try done;
    exists env0; eexists; (split; [exact wf_env0|]); split; [exact He|exact I| exact He|exact I].
Qed.
Lemma run0_reachable ops h : run env0 ops empty_heap = Some h -> reachable h.
Proof. apply run_reachable. constructor. Qed.
