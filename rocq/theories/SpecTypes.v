(** * SpecTypes: the types of nodes a call can bring about (C81) *)
From Verif Require Export SpecMem.

Definition makes (o : op) : list node_type :=
  match o with
  | OCreateDocument _ None _ _ => [NDocument]
  | OCreateDocument _ (Some _) _ _ => [NDocument; NElement]
  | OCreateDocumentType _ _ _ => [NDocumentType]
  | OReadXml _ => [NDocument; NElement; NAttribute; NText; NCData; NComment; NProcessingInstruction]
  | OCreateElement _ _ | OCreateElementNs _ _ _ => [NElement]
  | OCreateAttribute _ _ | OCreateAttributeNs _ _ _ => [NAttribute]
  | OCreateAttributeWith _ _ _ | OSetAttribute _ _ _ | OSetAttributeNs _ _ _ _ => [NAttribute; NText]
  | OCreateText _ _ | OAttrSetValue _ _ => [NText]
  | OCreateCData _ _ => [NCData]
  | OCreateComment _ _ => [NComment]
  | OCreatePI _ _ _ => [NProcessingInstruction]
  | OCreateFragment _ => [NDocumentFragment]
  | OCreateEntityReference _ _ => [NEntityReference]
  | OCreateNotation _ _ _ _ => [NNotation]
  | OCreateEntity _ _ _ _ | OCreateInternalEntity _ _ _ => [NEntity]
  | _ => []
  end.
Definition occurs (h : heap) (t : node_type) : Prop := exists i, node_type_of h i = Ok t.

(** The call creates no entity reference. *)
Definition no_reference (o : op) : Prop := match o with OCreateEntityReference _ _ => False | _ => True end.

(** A program and its handles, with reference counting at work after every call: [program G h H] if the state [h] and the handles [H], with repetitions,
    come about by calls that satisfy [G].  A call hands a new handle to the node it returns, if any; a lookup one to some node that exists. *)
Definition result (r : res (option id)) : list id := match r with Ok (Some i) => [i] | _ => [] end.
Definition ended (r : res (option id)) : Prop := match r with Ok _ | Err _ => True | Panic _ | Diverge => False end.
Inductive program (G : heap -> op -> Prop) : heap -> list id -> Prop :=
| program_start : program G empty_heap []
| program_call h H E o h1 r h' : program G h H -> G h o -> (forall l, o <> ODrop l) -> typed_op h o = true -> wf_env E -> exec E o h = (h1, r) -> ended r ->
    collected (result r ++ H) h1 h' -> program G h' (result r ++ H)
| program_look h H i : program G h H -> alive h i = true -> program G h (i :: H)
| program_drop h H1 i H2 h' : program G h (H1 ++ i :: H2) -> collected (H1 ++ H2) h h' -> program G h' (H1 ++ H2).
