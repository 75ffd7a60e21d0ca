(** * C64, C65: what a failing call has done, and which errors it can return *)
From Coq Require Import Lia.
From Verif Require Import SpecErr ProofText ProofName ProofInv ProofSteps ProofOps ProofTree ProofFrame ProofErr.

(** A call that returns an error has changed no node that existed before, except in the cases [half_done] names. *)
Theorem C64_atomic : forall E h o h' e, wf_env E -> reachable h -> typed_op h o = true -> exec E o h = (h', Err e) ->
  half_done h o e \/ forall j n, h_nodes h !! j = Some n -> h_nodes h' !! j = Some n.
Proof. intros E h o h' e HE Hr Ht H. exact (proj2 (exec_err E h o h' e HE (reachable_inv h Hr) Ht H)). Qed.
Print Assumptions C64_atomic.
(** The exceptions occur.  A refused replacement has already removed the old child. *)
Definition ex_err_ops : list op :=
  [OCreateDocument None (Some (lit "a")) None (set_assume_ids options_new); OCreateElement 0 (lit "b"); OAppendChild 1 2;
   OCreateComment 0 (lit "hello"); OAppendChild 1 3; OCreateDocument None (Some (lit "z")) None options_new;
   OSetAttribute 1 (lit "id") (lit "k"); OCreateAttribute 0 (lit "q"); OCreateComment 0 (lit "loose");
   OAttrSetValue 8 (lit "v"); OAttrUnsetValue 8; OCreateText 0 (lit "<<"); OCreateAttributeWith 0 (lit "id") (lit "k"); OCreateAttribute 4 (lit "far")].
Definition ex_err : heap := default empty_heap (run env0 ex_err_ops empty_heap).
Lemma ex_err_reachable : reachable ex_err.
Proof. apply (run0_reachable ex_err_ops). by vm_compute. Qed.
(** [replace_child] refused after the old child is gone; a duplicate identifier that leaves the attribute in place; a comment cut in
    two whose second half is lost. *)
Theorem C64_replace_refuted : exists h h' e, reachable h /\ typed_op h (OReplaceChild 1 5 2) = true /\ exec env0 (OReplaceChild 1 5 2) h = (h', Err e) /\
  child_nodes h 1 = Ok [2; 3] /\ child_nodes h' 1 = Ok [3].
Proof. exists ex_err, (exec env0 (OReplaceChild 1 5 2) ex_err).1, WrongDocument. split; [apply ex_err_reachable|]. split; [by vm_compute|]. split; [by vm_compute|]. by vm_compute. Qed.
Print Assumptions C64_replace_refuted.
Theorem C64_duplicate_id_refuted : exists h h', reachable h /\ exec env0 (OSetAttribute 2 (lit "id") (lit "k")) h = (h', Err Syntax) /\
  get_attribute env0 h 2 (lit "id") = Ok None /\ get_attribute env0 h' 2 (lit "id") = Ok (Some (lit "k")).
Proof. exists ex_err, (exec env0 (OSetAttribute 2 (lit "id") (lit "k")) ex_err).1. split; [apply ex_err_reachable|]. split; [by vm_compute|]. by vm_compute. Qed.
Print Assumptions C64_duplicate_id_refuted.
Theorem C64_split_comment_refuted : exists h h', reachable h /\ exec env0 (OSplit 3 2) h = (h', Err Syntax) /\
  node_value h 3 = Ok (Some (lit "hello")) /\ node_value h' 3 = Ok (Some (lit "he")).
Proof. exists ex_err, (exec env0 (OSplit 3 2) ex_err).1. split; [apply ex_err_reachable|]. split; [by vm_compute|]. by vm_compute. Qed.
Print Assumptions C64_split_comment_refuted.

(** ** C65 *)
Theorem C65_kinds : forall E h o h' e, wf_env E -> reachable h -> typed_op h o = true -> exec E o h = (h', Err e) -> In e (error_kinds o).
Proof. intros E h o h' e HE Hr Ht H. exact (proj1 (exec_err E h o h' e HE (reachable_inv h Hr) Ht H)). Qed.
Print Assumptions C65_kinds.
(** So these never return an error. *)
Theorem C65_infallible : forall E h o h' e, wf_env E -> reachable h -> typed_op h o = true -> error_kinds o = [] -> exec E o h <> (h', Err e).
Proof. intros E h o h' e HE Hr Ht Hk H. pose proof (C65_kinds E h o h' e HE Hr Ht H) as G. by rewrite Hk in G. Qed.
Print Assumptions C65_infallible.

(** And every kind listed for a call occurs: [call_of] forgets the arguments (for [create_document], all but which names are given). *)
Definition call_of (o : op) : nat * bool * bool :=
  match o with
  | OCreateDocument u q _ _ => (0, match u with Some _ => true | None => false end, match q with Some _ => true | None => false end)
  | OCreateDocumentType _ _ _ => (1, false, false) | OReadXml _ => (2, false, false) | OCreateElement _ _ => (3, false, false)
  | OCreateElementNs _ _ _ => (4, false, false) | OCreateAttribute _ _ => (5, false, false) | OCreateAttributeWith _ _ _ => (6, false, false)
  | OCreateAttributeNs _ _ _ => (7, false, false) | OCreateText _ _ => (8, false, false) | OCreateCData _ _ => (9, false, false)
  | OCreateComment _ _ => (10, false, false) | OCreatePI _ _ _ => (11, false, false) | OCreateFragment _ => (12, false, false)
  | OCreateEntityReference _ _ => (13, false, false) | OCreateNotation _ _ _ _ => (14, false, false) | OCreateEntity _ _ _ _ => (15, false, false)
  | OCreateInternalEntity _ _ _ => (16, false, false) | OInsertBefore _ _ _ => (17, false, false) | OAppendChild _ _ => (18, false, false)
  | OReplaceChild _ _ _ => (19, false, false) | ORemoveChild _ _ => (20, false, false) | OClone _ _ => (21, false, false)
  | ONormalize _ => (22, false, false) | OSetNodeValue _ _ => (23, false, false) | OUnsetNodeValue _ => (24, false, false)
  | OAppendData _ _ => (25, false, false) | OInsertData _ _ _ => (26, false, false) | ODeleteData _ _ _ => (27, false, false)
  | OReplaceData _ _ _ _ => (28, false, false) | OSplit _ _ => (29, false, false) | OAttrSetValue _ _ => (30, false, false)
  | OAttrUnsetValue _ => (31, false, false) | OSetAttribute _ _ _ => (32, false, false) | OSetAttributeNs _ _ _ _ => (33, false, false)
  | OSetAttributeNode _ _ => (34, false, false) | ORemoveAttribute _ _ => (35, false, false) | ORemoveAttributeNs _ _ _ => (36, false, false)
  | ORemoveAttributeNode _ _ => (37, false, false) | OSetXmlDecl _ _ => (38, false, false) | ODrop _ => (39, false, false)
  end.
Definition ex_name (e : error) : str := match e with InvalidCharacter => lit "a b" | Namespace => lit "xml:b" | _ => [] end.
Definition ex_child (e : error) : id := match e with WrongDocument => 5 | NotFound => 10 | _ => 8 end.
Definition ex_fails (o : op) (e : error) : op :=
  match o with
  | OCreateDocument u q _ _ => OCreateDocument (match u with Some _ => Some (lit "u") | None => None end) (match q with Some _ => Some (ex_name e) | None => None end) None options_new
  | OCreateDocumentType _ _ _ => OCreateDocumentType (ex_name e) None None
  | OReadXml _ => OReadXml (match e with
      | HierarchyRequest => [EEmpty (Some (lit "a")) []; EEmpty (Some (lit "b")) []]
      | _ => [EEmpty (Some (lit "a")) [PAttr (ex_name e) []]] end)
  | OCreateElement _ _ => OCreateElement 0 (ex_name e) | OCreateElementNs _ _ _ => OCreateElementNs 0 (lit "u") (ex_name e)
  | OCreateAttribute _ _ => OCreateAttribute 0 (ex_name e) | OCreateAttributeWith _ _ _ => OCreateAttributeWith 0 (ex_name e) []
  | OCreateAttributeNs _ _ _ => OCreateAttributeNs 0 (lit "u") (ex_name e) | OCreatePI _ _ _ => OCreatePI 0 (ex_name e) None
  | OCreateEntityReference _ _ => OCreateEntityReference 0 (ex_name e) | OCreateNotation _ _ _ _ => OCreateNotation 0 (ex_name e) None None
  | OCreateEntity _ _ _ _ => OCreateEntity 0 (ex_name e) None None | OCreateInternalEntity _ _ _ => OCreateInternalEntity 0 (ex_name e) []
  | OInsertBefore _ _ _ => OInsertBefore 1 (ex_child e) (Some 3) | OAppendChild _ _ => OAppendChild 1 (ex_child e)
  | OReplaceChild _ _ _ => OReplaceChild 1 (ex_child e) 2 | ORemoveChild _ _ => ORemoveChild 1 9
  | OInsertData _ _ _ => OInsertData 3 99 (lit "x") | ODeleteData _ _ _ => ODeleteData 3 99 1 | OReplaceData _ _ _ _ => OReplaceData 3 99 1 []
  | OSplit _ _ => match e with Syntax => OSplit 3 2 | _ => OSplit 11 3 end
  | OSetAttribute _ _ _ => OSetAttribute 1 (ex_name e) [] | OSetAttributeNs _ _ _ _ => OSetAttributeNs 1 (lit "u") (ex_name e) []
  | OSetAttributeNode _ _ => OSetAttributeNode 1 (match e with WrongDocument => 14 | Syntax => 13 | _ => 2 end)
  | o => o
  end.
Definition ex_check (o : op) (e : error) : bool :=
  typed_op ex_err (ex_fails o e) && match snd (exec env0 (ex_fails o e) ex_err) with Err x => bool_decide (x = e) | _ => false end.
Theorem C65_tight : forall o e, In e (error_kinds o) -> exists h o' h', reachable h /\ call_of o' = call_of o /\ typed_op h o' = true /\ exec env0 o' h = (h', Err e).
Proof.
  intros o e Hin. assert (Hc : ex_check o e = true).
  { destruct o; cbn [error_kinds] in Hin; repeat case_match; unfold plain_errors, ns_errors in Hin; cbn [In] in Hin;
      repeat match goal with X : _ \/ _ |- _ => destruct X end; try done; subst e; vm_cast_no_check (eq_refl true). }
  unfold ex_check in Hc. apply andb_true_iff in Hc as [H1 H2]. destruct (exec env0 (ex_fails o e) ex_err) as [h' r] eqn:He. exists ex_err, (ex_fails o e), h'.
  split; [apply ex_err_reachable|]. split; [clear; destruct o; cbn; repeat case_match; done|]. split; [done|]. rewrite He. cbn in H2. destruct r; try done. apply bool_decide_eq_true in H2. by subst.
Qed.
Print Assumptions C65_tight.
