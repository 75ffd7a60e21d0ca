(** * PropGuard: guards the caller holds during a call (C78)

    [RefNode] lets a client call [borrow] and [borrow_mut] itself and keep the guard while it calls the DOM.  [G] is
    the list of guards the client holds: [(i, false)] from [borrow], [(i, true)] from [borrow_mut]. *)
From Coq Require Import Lia.
From Verif Require Import SpecGuard ProofBorrow ProofGuard ProofGuardAsk ProofGuardPart ProofSteps PropName PropBorrow.

(** ** Guards can only make a call panic *)
Theorem C78_calls : forall E o G h, refuses (b_exec E o G h) (b_exec E o [] h).
Proof. intros E o G h. apply (t_exec [] E o G h). Qed.
Print Assumptions C78_calls.
Theorem C78_outcome : forall E o G h, wild h -> handles_live h o ->
  b_exec E o G h = exec E o h \/ exists h' p, b_exec E o G h = (h', Panic p).
Proof.
  intros E o G h Hw Hl. destruct (C78_calls E o G h) as [->|[h' ->]]; [|right; by eexists _, _].
  destruct (C76_agree E h o Hw Hl) as [->|[(h' & p & ->) _]]; [by left|right; by eexists _, _].
Qed.
Print Assumptions C78_outcome.
Theorem C78_exact : forall E o G h, sets_attribute o = false ->
  b_exec E o G h = exec E o h \/ exists h', b_exec E o G h = (h', Panic PBorrow).
Proof. intros E o G h Ho. rewrite <- (C76_exact E h o Ho). apply C78_calls. Qed.
Print Assumptions C78_exact.
(** More guards do not help. *)
Theorem C78_more : forall E o G G' h, refuses (b_exec E o (G ++ G') h) (b_exec E o G h).
Proof. intros E o G G' h. apply (t_exec G E o G' h). Qed.
Print Assumptions C78_more.

(** ** Queries never write, and pass shared guards *)
Theorem C78_queries : forall E q G h, b_ask E q G h = (h, ask E h q) \/ b_ask E q G h = (h, Panic PBorrow).
Proof.
  intros E q G h. pose proof (ro_ask E q G h) as Hh. destruct (t_ask [] E q G h) as [H|[h' H]]; cbn [app] in H; rewrite H in *.
  - left. apply b_ask_eq, nomut_nil. - right. cbn in Hh. by subst.
Qed.
Print Assumptions C78_queries.
Theorem C78_shared : forall E q G h, shared_only G -> b_ask E q G h = (h, ask E h q).
Proof. intros E q G h HG. by apply b_ask_eq. Qed.
Print Assumptions C78_shared.

(** ** Guards on nodes of another part of the state do nothing *)
Theorem C78_elsewhere : forall S E o G h, wf_env E -> part S h -> (forall i, In i (given o) -> S i) -> (forall i, holds G i -> ~ S i) ->
  b_exec E o G h = b_exec E o [] h.
Proof. intros S E o G h HE Hp Hg HG. apply (f_exec S G); [|done..]. intros i b H. apply HG. by exists b. Qed.
Print Assumptions C78_elsewhere.
Theorem C78_elsewhere_asked : forall S E q G h, wf_env E -> part S h -> S (asked q) -> (forall i, holds G i -> ~ S i) ->
  b_ask E q G h = (h, ask E h q).
Proof.
  intros S E q G h HE Hp Hg HG. rewrite (f_ask S G); [apply b_ask_eq, nomut_nil| |done..]. intros i b H. apply HG. by exists b.
Qed.
Print Assumptions C78_elsewhere_asked.

(** ** What is refused *)
Section blocked.
  Context (i : id) (G : guards) (h : heap) (n : node) (Hn : h_nodes h !! i = Some n).
  Definition blk {A} (m : B A) : Prop := m G h = (h, Panic PBorrow).
  Lemma blk_bind {A C} (m : B A) (k : A -> B C) : blk m -> blk (b_bind m k).
  Proof. unfold blk, b_bind, bind. by intros ->. Qed.
  Lemma blk_borrow {A} (k : node -> B A) : (i, true) ∈ G -> blk (borrow i k).
  Proof. intros H. unfold blk, borrow. rewrite Hn. by rewrite bool_decide_true. Qed.
  Lemma blk_borrow_mut {A} (k : node -> B A) : holds G i -> blk (borrow_mut i k).
  Proof. intros [b H]. unfold blk, borrow_mut. rewrite Hn. rewrite bool_decide_true; [done|]. destruct b; tauto. Qed.
  Lemma blk_at {A} (f : heap -> B A) : blk (f h) -> blk (fun g h => f h g h). Proof. done. Qed.
End blocked.
(** Every query but three looks at the node it is asked of: it panics while the client holds a mutable guard to it. *)
Theorem C78_self : forall E q G h, alive h (asked q) = true -> (asked q, true) ∈ G -> ~ blind_query E q ->
  b_ask E q G h = (h, Panic PBorrow).
Proof.
  intros E q G h Hl HG Hb. unfold alive in Hl. destruct (h_nodes h !! asked q) as [n|] eqn:Hn; [|done]. clear Hl.
  change (blk G h (b_ask E q)).
  assert (H : forall A (k : node -> B A), blk G h (borrow (asked q) k)) by (intros; by eapply blk_borrow). clear HG Hn.
  destruct q; cbn [b_ask asked blind_query] in *; try done; apply blk_bind;
    try (apply H); try (apply blk_bind, H); try (apply blk_bind, blk_bind, H); try (apply blk_bind, blk_bind, blk_bind, H); try (apply blk_at; cbn [walk_fuel b_search b_fmt_node b_resolve_namespace_rec b_resolve_prefix_rec]; apply blk_bind; first [apply H | apply blk_bind, H]).
  - destruct T; apply H. - destruct T; first [apply H | apply blk_bind, H].
  - unfold b_substring_data. unfold blk, b_bind, bind, b_pure, lift. destruct (usize_add (e_checked E) off cnt) as [e|?|?|]; try tauto. destruct (N.eqb_spec e off); [done|]. apply H.
Qed.
Print Assumptions C78_self.
(** A call that writes its node and does nothing else panics while the client holds any guard to it, and changes nothing. *)
Theorem C78_write_self : forall E o i G h, writes_only E o = Some i -> alive h i = true -> holds G i ->
  b_exec E o G h = (h, Panic PBorrow).
Proof.
  intros E o i G h Ho Hl HG. unfold alive in Hl. destruct (h_nodes h !! i) as [n|] eqn:Hn; [|done]. clear Hl.
  assert (H : forall A (k : node -> B A), blk G h (borrow_mut i k)) by (intros; by eapply blk_borrow_mut). clear HG Hn.
  change (blk G h (b_exec E o)). destruct o; cbn [b_exec writes_only] in *; try done; apply blk_bind; try (injection Ho as ->; apply H).
  - unfold b_append_data. destruct (is_nil s); [done|]. injection Ho as ->. apply H.
  - unfold b_insert_data. destruct (is_nil s); [done|]. injection Ho as ->. apply H.
  - unfold b_delete_data. unfold blk, b_bind, bind, b_pure, lift. destruct (usize_add (e_checked E) off cnt) as [e|?|?|]; try done. destruct (e =? off)%N; [done|]. injection Ho as ->. apply H.
Qed.
Print Assumptions C78_write_self.

(** *** Examples *)
(** Two documents: 0 with root 1 that has the text 2, and 3 with root 4 that has the element 5. *)
Definition ex_guard_ops : list op :=
  [OCreateDocument None (Some (lit "r")) None options_new; OCreateText 0 (lit "abc"); OAppendChild 1 2;
   OCreateDocument None (Some (lit "s")) None options_new; OCreateElement 3 (lit "e"); OAppendChild 4 5]%nat.
Definition ex_guard : heap := default empty_heap (run env0 ex_guard_ops empty_heap).
Definition ex_part (i : id) : Prop := (3 <= i)%nat.
Example ex_guard_reachable : reachable ex_guard. Proof. apply (run0_reachable ex_guard_ops). by vm_compute. Qed.
Example ex_guard_part : part ex_part ex_guard.
Proof.
  split; [|intros k; change (h_next ex_guard) with 6%nat; unfold ex_part; lia].
  assert (H : map_fold (fun i n b => b && ((i <? 3)%nat || forallb (fun j => (3 <=? j)%nat) (node_links n))) true (h_nodes ex_guard) = true) by (by vm_compute).
  intros i n Hi Hn j Hj. revert H. rewrite <- (insert_delete _ _ _ Hn). rewrite map_fold_insert_L; [|intros; destruct (_ || _), (_ || _); by rewrite ?andb_true_r, ?andb_false_r|apply lookup_delete].
  intros [_ H]%andb_true_iff. apply orb_true_iff in H as [H|H]; [apply Nat.ltb_lt in H; unfold ex_part in Hi; lia|]. eapply forallb_forall in H; [|done]. by apply Nat.leb_le in H.
Qed.
(** Guards on the first document: calls in the second go through, the removal of the text does not. *)
Example C78_elsewhere_example : (forall i, In i (given (ORemoveChild 4 5)) -> ex_part i) /\ (forall i, holds [(0, true); (1, true); (2, false)]%nat i -> ~ ex_part i) /\
  (b_exec env0 (ORemoveChild 4 5) [(0, true); (1, true); (2, false)]%nat ex_guard).2 = Ok (Some 5%nat) /\
  (b_ask env0 (QToString 3) [(0, true); (1, true); (2, false)]%nat ex_guard).2 = Ok (AStr (lit "<s><e></e></s>")) /\
  b_exec env0 (ORemoveChild 1 2) [(0, true); (1, true); (2, false)]%nat ex_guard = (ex_guard, Panic PBorrow).
Proof.
  split; [intros i [<-|[<-|[]]]; unfold ex_part; lia|]. split; [|split_and!; by vm_compute].
  intros i [b H]. unfold ex_part. rewrite !elem_of_cons, elem_of_nil in H. destruct H as [H|[H|[H|[]]]]; injection H as -> _; lia.
Qed.
(** Shared guards on every node: every query is answered, a call that writes none of its nodes' cells goes through, others do not. *)
Definition ex_all : guards := [(0, false); (1, false); (2, false); (3, false); (4, false); (5, false)]%nat.
Example C78_shared_example : shared_only ex_all /\ (b_ask env0 (QToString 0) ex_all ex_guard).2 = Ok (AStr (lit "<r>abc</r>")) /\
  (b_ask env0 (QNext 2) ex_all ex_guard).2 = Ok (AOptNode None) /\ (b_exec env0 (OClone true 1) ex_all ex_guard).2 = Ok (Some 7%nat) /\
  b_exec env0 (OClone true 1) ex_all ex_guard = exec env0 (OClone true 1) ex_guard /\
  b_exec env0 (OSetNodeValue 2 (lit "x")) ex_all ex_guard = (ex_guard, Panic PBorrow).
Proof.
  split; [|split_and!; by vm_compute]. intros i H. unfold ex_all in H. rewrite !elem_of_cons, elem_of_nil in H. naive_solver.
Qed.
Example C78_self_example : alive ex_guard 2 = true /\ (2, true)%nat ∈ [(2, true)]%nat /\ ~ blind_query env0 (QData 2) /\
  b_ask env0 (QData 2) [(2, true)]%nat ex_guard = (ex_guard, Panic PBorrow) /\ ask env0 ex_guard (QData 2) = Ok (AOptStr (Some (lit "abc"))).
Proof. split; [done|]. split; [set_solver|]. split; [intros []|]. split; by vm_compute. Qed.
Example C78_write_self_example : writes_only env0 (OAppendData 2 (lit "x")) = Some 2%nat /\ holds [(2, false)]%nat 2 /\
  (exec env0 (OAppendData 2 (lit "x")) ex_guard).2 = Ok None /\ b_exec env0 (OAppendData 2 (lit "x")) [(2, false)]%nat ex_guard = (ex_guard, Panic PBorrow).
Proof. split; [done|]. split; [exists false; set_solver|]. split; by vm_compute. Qed.
(** The blind queries do answer under a mutable guard to their node. *)
Example C78_blind_example : b_ask env0 (QIsSupported 2 (lit "XML") (lit "2.0")) [(2, true)]%nat ex_guard = (ex_guard, ask env0 ex_guard (QIsSupported 2 (lit "XML") (lit "2.0"))) /\
  b_ask env0 (QSubstring 2 1 0) [(2, true)]%nat ex_guard = (ex_guard, Ok (AStr [])).
Proof. split; by vm_compute. Qed.
(** A refused call may leave its work half done: with a shared guard to the new parent, [append_child] takes the child from
    its old parent, links it to the new one and panics before the new parent lists it. *)
Example C78_unchanged_refuted : exists h o G h', reachable h /\ shared_only G /\ typed_op h o = true /\ (exec env0 o h).2 = Ok (Some 2%nat) /\
  b_exec env0 o G h = (h', Panic PBorrow) /\ ask env0 h (QParent 2) = Ok (AOptNode (Some 1%nat)) /\
  ask env0 h' (QParent 2) = Ok (AOptNode (Some 3%nat)) /\ ask env0 h' (QChildren 3) = Ok (ANodes []) /\ ask env0 h' (QChildren 1) = Ok (ANodes [3%nat]).
Proof.
  set (ops := [OCreateDocument None (Some (lit "r")) None options_new; OCreateText 0 (lit "abc"); OAppendChild 1 2; OCreateElement 0 (lit "e"); OAppendChild 1 3]%nat).
  exists (default empty_heap (run env0 ops empty_heap)), (OAppendChild 3 2), [(3, false)]%nat. eexists.
  split; [apply (run0_reachable ops); by vm_compute|]. split; [intros i H; set_solver|]. split; [by vm_compute|]. split; [by vm_compute|]. split; [by vm_compute|]. split_and!; by vm_compute.
Qed.
(** Shared guards do matter to calls: so "a shared guard changes nothing" is false of them. *)
Example C78_shared_calls_refuted : exists h o G, reachable h /\ shared_only G /\ (exec env0 o h).2 = Ok None /\ (b_exec env0 o G h).2 = Panic PBorrow.
Proof.
  exists ex_guard, (OSetAttribute 1 (lit "k") (lit "v")), [(1, false)]%nat. split; [apply ex_guard_reachable|]. split; [intros i H; set_solver|]. split; by vm_compute.
Qed.
