(** * C29-C34: insertion, removal, replacement, siblings *)
From Coq Require Import Lia.
From Verif Require Import SpecTree ProofText ProofName ProofInv ProofSteps ProofOps ProofTree ProofInsert PropTree.

(** An element (1) with children 2, 3, 4, 5 and a second element (6) with child 7; 8 is loose. *)
Definition ex_sib_ops : list op :=
  [OCreateDocument None (Some (lit "r")) None options_new] ++ concat (map (fun k => [OCreateComment 0 (lit "c"); OAppendChild 1 k]) [2; 3; 4; 5])
  ++ [OCreateElement 0 (lit "e"); OCreateText 0 (lit "t"); OAppendChild 6 7; OCreateText 0 (lit "u")].
Definition ex_sib : heap := default empty_heap (run env0 ex_sib_ops empty_heap).
Example ex_sib_reachable : reachable ex_sib.
Proof. apply (run0_reachable ex_sib_ops). by vm_compute. Qed.
Example ex_sib_two_way : two_way ex_sib.
Proof. apply C27_two_way, (run_guided_tame ex_sib_ops empty_heap); [constructor|by vm_compute|by vm_compute]. Qed.
Definition children_after {A} (p : id) (m : M A) (h : heap) : res (list id) :=
  match m h with (h', Ok _) => child_nodes h' p | (_, Err e) => Err e | (_, Panic x) => Panic x | (_, Diverge) => Diverge end.

(** ** C29 *)
Theorem C29_returns_new : forall h h' p c r x, reachable h -> insert_before p c r h = (h', Ok x) -> x = c.
Proof. intros h h' p c r x Hr H. by destruct (insert_ok h h' p c r x (reachable_inv h Hr) H). Qed.
Print Assumptions C29_returns_new.
(** Without [ref_child], or with [append_child]: at the end (of the list it has been taken out of, if it was there). *)
Theorem C29_append : forall h h' p c x l, reachable h -> insert_before p c None h = (h', Ok x) -> child_nodes h p = Ok l ->
  (parent_node h c <> Ok (Some p) -> child_nodes h' p = Ok (l ++ [c])) /\
  (parent_node h c = Ok (Some p) -> exists l0, without_first c l l0 /\ child_nodes h' p = Ok (l0 ++ [c])).
Proof.
  intros h h' p c x l Hr H (np & Hp & <-)%child_nodes_ok.
  destruct (insert_ok h h' p c None x (reachable_inv h Hr) H) as (_ & np1 & nc & l0 & k & np' & nc' & [? ? ? ? ? ? ? ? ? Hl0 Hl0' Hch Hk ? ? ? ? ? ?]).
  assert (np1 = np) by congruence. subst np1 k. rewrite place_end in Hch. split; intros Hpar.
  - rewrite <- (Hl0' Hpar), <- Hch. apply child_nodes_ok. eauto.
  - exists l0. split; [by apply Hl0|]. rewrite <- Hch. apply child_nodes_ok. eauto.
Qed.
Print Assumptions C29_append.
Theorem C29_append_child : forall p c, append_child p c = insert_before p c None. Proof. done. Qed.
Print Assumptions C29_append_child.
(** With a reference: directly before it, when the new child comes from elsewhere. *)
Theorem C29_before : forall h h' p c y x l1 l2, reachable h -> insert_before p c (Some y) h = (h', Ok x) ->
  child_nodes h p = Ok (l1 ++ y :: l2) -> ~ In y l1 -> parent_node h c <> Ok (Some p) -> child_nodes h' p = Ok (l1 ++ c :: y :: l2).
Proof.
  intros h h' p c y x l1 l2 Hr H (np & Hp & Hl)%child_nodes_ok Hy Hpar.
  destruct (insert_ok h h' p c (Some y) x (reachable_inv h Hr) H) as (_ & np1 & nc & l0 & k & np' & nc' & [? ? ? ? ? ? ? ? ? Hl0 Hl0' Hch Hk ? ? ? ? ? ?]).
  assert (np1 = np) by congruence. subst np1. rewrite Hl, (position_app y l1 l2 Hy) in Hk. destruct Hk as [[= <-] _].
  specialize (Hl0' Hpar). rewrite Hl in Hl0'. subst l0. rewrite place_before in Hch. apply child_nodes_ok. eauto.
Qed.
Print Assumptions C29_before.
(** A child that stood after the reference moves to just before it. *)
Theorem C29_move_up : forall h h' p c y x l1 m l2, reachable h -> insert_before p c (Some y) h = (h', Ok x) ->
  child_nodes h p = Ok (l1 ++ y :: m ++ c :: l2) -> List.NoDup (l1 ++ y :: m ++ c :: l2) -> parent_node h c = Ok (Some p) ->
  child_nodes h' p = Ok (l1 ++ c :: y :: m ++ l2).
Proof.
  intros h h' p c y x l1 m l2 Hr H (np & Hp & Hl)%child_nodes_ok Hnd Hpar.
  destruct (insert_ok h h' p c (Some y) x (reachable_inv h Hr) H) as (_ & np1 & nc & l0 & k & np' & nc' & [? ? ? ? ? ? ? ? ? Hl0 Hl0' Hch Hk ? ? ? ? ? ?]).
  assert (np1 = np) by congruence. subst np1. destruct (NoDup_app_notin _ _ _ Hnd) as [Hy _].
  rewrite Hl, (position_app y l1 _ Hy) in Hk. destruct Hk as [[= <-] _].
  specialize (Hl0 Hpar). rewrite Hl in Hl0.
  assert (E : without_first c (l1 ++ y :: m ++ c :: l2) (l1 ++ y :: m ++ l2)).
  { change (l1 ++ y :: m ++ c :: l2) with (l1 ++ (y :: m) ++ c :: l2). change (l1 ++ y :: m ++ l2) with (l1 ++ (y :: m) ++ l2). rewrite !app_assoc.
    constructor. rewrite <- (NoDup_ListNoDup) in Hnd. change (l1 ++ y :: m ++ c :: l2) with (l1 ++ (y :: m) ++ c :: l2) in Hnd. rewrite app_assoc in Hnd.
    rewrite NoDup_ListNoDup in Hnd. by destruct (NoDup_app_notin _ _ _ Hnd). }
  rewrite (without_first_fun _ _ _ _ Hl0 E) in Hch. rewrite place_before in Hch. apply child_nodes_ok. eauto.
Qed.
Print Assumptions C29_move_up.
(** A child that stood before the reference lands just after it: DOM asks for just before. *)
Theorem C29_move_down : forall h h' p c y x l1 m l2, reachable h -> insert_before p c (Some y) h = (h', Ok x) ->
  child_nodes h p = Ok (l1 ++ c :: m ++ y :: l2) -> List.NoDup (l1 ++ c :: m ++ y :: l2) -> parent_node h c = Ok (Some p) ->
  child_nodes h' p = Ok (l1 ++ m ++ y :: c :: l2).
Proof.
  intros h h' p c y x l1 m l2 Hr H (np & Hp & Hl)%child_nodes_ok Hnd Hpar.
  destruct (insert_ok h h' p c (Some y) x (reachable_inv h Hr) H) as (_ & np1 & nc & l0 & k & np' & nc' & [? ? ? ? ? ? ? ? ? Hl0 Hl0' Hch Hk ? ? ? ? ? ?]).
  assert (np1 = np) by congruence. subst np1. destruct (NoDup_app_notin _ _ _ Hnd) as [Hc _].
  assert (Hy : ~ In y (l1 ++ c :: m)).
  { change (l1 ++ c :: m ++ y :: l2) with (l1 ++ (c :: m) ++ y :: l2) in Hnd. rewrite app_assoc in Hnd. by destruct (NoDup_app_notin _ _ _ Hnd). }
  assert (E : without_first c (l1 ++ c :: m ++ y :: l2) (l1 ++ m ++ y :: l2)) by (by constructor).
  specialize (Hl0 Hpar). rewrite Hl in Hl0. rewrite (without_first_fun _ _ _ _ Hl0 E) in Hch.
  assert (Hpos : position y (l1 ++ c :: m ++ y :: l2) = Some (length (l1 ++ c :: m))).
  { change (l1 ++ c :: m ++ y :: l2) with (l1 ++ (c :: m) ++ y :: l2). rewrite app_assoc. by apply position_app. }
  rewrite Hl, Hpos in Hk. destruct Hk as [[= <-] _].
  replace (length (l1 ++ c :: m)) with (length (l1 ++ m ++ [y])) in Hch by (rewrite !app_length; cbn; lia).
  replace (l1 ++ m ++ y :: l2) with ((l1 ++ m ++ [y]) ++ l2) in Hch by (rewrite <- !app_assoc; done).
  rewrite place_before in Hch. rewrite <- !app_assoc in Hch. apply child_nodes_ok. eauto.
Qed.
Print Assumptions C29_move_down.
(** Inserting a child before itself changes nothing in the list. *)
Theorem C29_itself : forall h h' p c x l, reachable h -> insert_before p c (Some c) h = (h', Ok x) ->
  child_nodes h p = Ok l -> List.NoDup l -> parent_node h c = Ok (Some p) -> child_nodes h' p = Ok l.
Proof.
  intros h h' p c x l Hr H (np & Hp & <-)%child_nodes_ok Hnd Hpar.
  destruct (insert_ok h h' p c (Some c) x (reachable_inv h Hr) H) as (_ & np1 & nc & l0 & k & np' & nc' & [? ? ? ? ? ? ? ? ? Hl0 Hl0' Hch Hk ? ? ? ? ? ?]).
  assert (np1 = np) by congruence. subst np1. specialize (Hl0 Hpar). destruct Hk as [Hk _]. inversion Hl0 as [a b Ha E1 E2].
  rewrite <- E1, (position_app c a b Ha) in Hk. injection Hk as <-. subst l0. rewrite place_before in Hch. apply child_nodes_ok. eauto.
Qed.
Print Assumptions C29_itself.
Example C29_example : child_nodes ex_sib 1 = Ok [2; 3; 4; 5] /\ children_after 1 (insert_before 1 8 (Some 4)) ex_sib = Ok [2; 3; 8; 4; 5]
  /\ children_after 1 (insert_before 1 5 (Some 3)) ex_sib = Ok [2; 5; 3; 4] /\ children_after 1 (insert_before 1 7 None) ex_sib = Ok [2; 3; 4; 5; 7]
  /\ children_after 1 (insert_before 1 3 (Some 3)) ex_sib = Ok [2; 3; 4; 5] /\ children_after 1 (append_child 1 2) ex_sib = Ok [3; 4; 5; 2].
Proof. by vm_compute. Qed.
(** DOM: "inserts newChild before refChild".  Here 2 is inserted before 4 and ends after it. *)
Theorem C29_dom_order_refuted : reachable ex_sib /\ children_after 1 (insert_before 1 2 (Some 4)) ex_sib = Ok [3; 4; 2; 5].
Proof. split; [exact ex_sib_reachable|by vm_compute]. Qed.
Print Assumptions C29_dom_order_refuted.

(** ** C30 *)
Theorem C30_moves_and_frames : forall h h' p c r x, reachable h -> insert_before p c r h = (h', Ok x) ->
  parent_node h' c = Ok (Some p) /\ child h' p c /\
  only_changed h h' (fun i => i = p \/ i = c \/ parent_node h c = Ok (Some i)) /\
  (exists np np', h_nodes h !! p = Some np /\ h_nodes h' !! p = Some np' /\ same_but_children np np') /\
  (exists nc nc', h_nodes h !! c = Some nc /\ h_nodes h' !! c = Some nc' /\ same_but_parent nc nc') /\
  (forall q, q <> p -> parent_node h c = Ok (Some q) -> exists nq nq', h_nodes h !! q = Some nq /\ h_nodes h' !! q = Some nq' /\
     same_but_children nq nq' /\ without_first c (n_children nq) (n_children nq')).
Proof.
  intros h h' p c r x Hr H.
  destruct (insert_ok h h' p c r x (reachable_inv h Hr) H) as (_ & np & nc & l0 & k & np' & nc' & [Hp Hc Hp' Hc' Hne Hsp Hsc Hpar Hal Hl0 Hl0' Hch Hk Hfr Hold Hnx ? ? ?]).
  split_and!; [| | |by eauto|by eauto|done].
  - apply parent_node_some. exists nc', np'. split; [done|]. split; [|done]. destruct Hsc as [-> _]. by destruct (child_type_docs _ _ Hal) as (_ & _ & ? & _).
  - apply child_edge. exists np'. split; [done|]. rewrite Hch. apply In_insert. by left.
  - split; [done|]. intros i Hi. apply Hfr; tauto.
Qed.
Print Assumptions C30_moves_and_frames.
(** In a consistent tree it is gone from its old parent's list. *)
Theorem C30_gone_from_old_parent : forall h h' p c r x q l, reachable h -> insert_before p c r h = (h', Ok x) ->
  parent_node h c = Ok (Some q) -> q <> p -> consistent_at h q l ->
  exists l', child_nodes h' q = Ok l' /\ ~ In c l' /\ without_first c l l'.
Proof.
  intros h h' p c r x q l Hr H Hq Hne ((nq & Hnq & <-)%child_nodes_ok & Hnd & _).
  destruct (C30_moves_and_frames h h' p c r x Hr H) as (_ & _ & _ & _ & _ & Hold).
  destruct (Hold q Hne Hq) as (nq1 & nq' & Hq1 & Hq' & _ & Hw). assert (nq1 = nq) by congruence. subst nq1.
  exists (n_children nq'). split; [apply child_nodes_ok; eauto|]. split; [|done]. inversion Hw as [a b Ha E1 E2].
  rewrite <- E1 in Hnd. destruct (NoDup_app_notin _ _ _ Hnd). rewrite in_app_iff. tauto.
Qed.
Print Assumptions C30_gone_from_old_parent.
Example C30_example : (exists h', insert_before 1 7 (Some 4) ex_sib = (h', Ok 7) /\ child_nodes h' 6 = Ok [] /\ parent_node h' 7 = Ok (Some 1))
  /\ parent_node ex_sib 7 = Ok (Some 6) /\ consistent_at ex_sib 6 [7].
Proof.
  split; [eexists; split; [by vm_compute|by vm_compute]|]. split; [by vm_compute|]. split; [by vm_compute|].
  split; [repeat constructor; tauto|]. intros c [<-|[]]. by vm_compute.
Qed.

(** ** C31 *)
Theorem C31_error_kind : forall h h' p c r e, reachable h -> insert_before p c r h = (h', Err e) -> h' = h /\ refused h p c r e.
Proof.
  intros h h' p c r e Hr H. pose proof (reachable_inv h Hr) as HI.
  destruct (insert_before_inv h h' p c r _ HI H Logic.I) as (np & nc & Hp & Hc & [(e' & [= <-] & -> & Hf)|(? & _)]); [|done].
  split; [done|]. by eapply fails_refused.
Qed.
Print Assumptions C31_error_kind.
(** Exactly: if the call returns, it fails with [e] iff it is refused with [e]; [refused] determines [e]. *)
Theorem C31_exactly : forall h h' p c r x e, reachable h -> insert_before p c r h = (h', x) -> (exists y, x = Ok y) \/ (exists e', x = Err e') ->
  (x = Err e <-> refused h p c r e).
Proof.
  intros h h' p c r x e Hr H Hx. split.
  - intros ->. by destruct (C31_error_kind h h' p c r e Hr H).
  - intros Hf. destruct Hx as [[y ->]|[e' ->]].
    + by destruct (ok_not_refused h h' p c r y e (reachable_inv h Hr) H).
    + destruct (C31_error_kind h h' p c r e' Hr H) as [_ Hf']. by rewrite (refused_fun _ _ _ _ _ _ Hf Hf').
Qed.
Print Assumptions C31_exactly.
(** It does return if the nodes are different and their documents have not been dropped. *)
Theorem C31_returns : forall h p c r, reachable h -> alive h p = true -> alive h c = true -> p <> c ->
  (forall d, document_of h p = Some d -> alive h d = true) -> (forall d, document_of h c = Some d -> alive h d = true) ->
  exists h' x, insert_before p c r h = (h', x) /\ ((exists y, x = Ok y) \/ (exists e, x = Err e)).
Proof.
  intros h p c r Hr [np Hp]%alive_true [nc Hc]%alive_true Hne Hd1 Hd2.
  destruct (insert_returns h p c r np nc (reachable_inv h Hr) Hp Hc Hne Hd1 Hd2) as (h' & x & H & Hx). exists h', x. split; [done|]. destruct x; try done; eauto.
Qed.
Print Assumptions C31_returns.
Example C31_example : insert_before 2 3 None ex_sib = (ex_sib, Err HierarchyRequest) /\ insert_before 0 6 (Some 8) ex_sib = (ex_sib, Err HierarchyRequest)
  /\ insert_before 1 8 (Some 7) ex_sib = (ex_sib, Err NotFound) /\ insert_before 2 5 None ex_tree = (ex_tree, Err WrongDocument)
  /\ insert_before 2 5 (Some 4) ex_tree = (ex_tree, Err NotFound) /\ insert_before 5 2 (Some 4) ex_tree = (ex_tree, Err HierarchyRequest).
Proof. by vm_compute. Qed.
(** The last case of [refused] happens: the text of an attribute whose value was unset claims to have a parent, and can then not be
    inserted anywhere. *)
Example C31_stale_example : let h := default empty_heap (run env0 (ex_stale_ops ++ [OCreateElement 0 (lit "e")]) empty_heap) in
  insert_before 3 2 None h = (h, Err NotFound).
Proof. by vm_compute. Qed.

(** ** C32 *)
Theorem C32_found : forall h p c l, reachable h -> child_nodes h p = Ok l -> In c l ->
  exists h' l', remove_child p c h = (h', Ok c) /\ child_nodes h' p = Ok l' /\ without_first c l l' /\ parent_node h' c = Ok None /\
    only_changed h h' (fun i => i = p \/ i = c) /\
    (exists np np', h_nodes h !! p = Some np /\ h_nodes h' !! p = Some np' /\ same_but_children np np') /\
    (exists nc nc', h_nodes h !! c = Some nc /\ h_nodes h' !! c = Some nc' /\ same_but_parent nc nc').
Proof.
  intros h p c l Hr (np & Hp & <-)%child_nodes_ok Hin. pose proof (reachable_inv h Hr) as HI.
  destruct (position_some c (n_children np) Hin) as [k Hk].
  destruct (child_alive h p c HI) as (nc & Hc & _ & Hne); [apply child_edge; eauto|].
  pose proof (remove_child_eq h p c np HI Hp) as E. rewrite Hk, Hc in E.
  destruct (remove_ok h _ p c np nc k Hp Hc Hne Hk eq_refl) as (np' & nc' & Hp' & Hc' & Hsp & Hsc & Hpar & Hw & _ & Hfr & Hnx).
  exists (removed h p c np nc k), (n_children np'). split_and!; [done|apply child_nodes_ok; eauto|done| | |by eauto|by eauto].
  - unfold parent_node. rewrite (get_node_some _ _ _ Hc'). cbn [rbind]. rewrite Hpar. by destruct (is_type NAttribute nc').
  - split; [done|]. intros i Hi. apply Hfr; tauto.
Qed.
Print Assumptions C32_found.
Theorem C32_not_found : forall h p c l, reachable h -> child_nodes h p = Ok l -> ~ In c l -> remove_child p c h = (h, Err NotFound).
Proof.
  intros h p c l Hr (np & Hp & <-)%child_nodes_ok Hin. rewrite (remove_child_eq h p c np (reachable_inv h Hr) Hp).
  apply position_none in Hin. by rewrite Hin.
Qed.
Print Assumptions C32_not_found.
Example C32_example : children_after 1 (remove_child 1 3) ex_sib = Ok [2; 4; 5] /\ remove_child 1 8 ex_sib = (ex_sib, Err NotFound)
  /\ remove_child 1 7 ex_sib = (ex_sib, Err NotFound).
Proof. by vm_compute. Qed.

(** ** C34 (before C33, which uses it) *)
Theorem C34_next : forall h p l k c, consistent_at h p l -> l !! k = Some c -> next_sibling h c = Ok (l !! S k).
Proof. exact next_sibling_eq. Qed.
Print Assumptions C34_next.
Theorem C34_previous : forall h p l k c, consistent_at h p l -> l !! k = Some c ->
  previous_sibling h c = Ok (match k with O => None | S j => l !! j end).
Proof. exact previous_sibling_eq. Qed.
Print Assumptions C34_previous.
Theorem C34_inverse : forall h p l a b, consistent_at h p l -> In a l -> In b l ->
  (next_sibling h a = Ok (Some b) <-> previous_sibling h b = Ok (Some a)).
Proof.
  intros h p l a b Hc Ha Hb. pose proof Hc as (_ & Hnd & _).
  rewrite <- elem_of_list_In in Ha, Hb. apply elem_of_list_lookup_1 in Ha as [i Hi], Hb as [j Hj].
  rewrite (next_sibling_eq h p l i a Hc Hi), (previous_sibling_eq h p l j b Hc Hj). split.
  - intros [= E]. assert (j = S i) as -> by (by eapply (proj1 (NoDup_lookup_iff l))). by rewrite Hi.
  - destruct j as [|j]; [done|]. intros [= E]. assert (i = j) as -> by (by eapply (proj1 (NoDup_lookup_iff l))). by rewrite Hj.
Qed.
Print Assumptions C34_inverse.
Theorem C34_ends : forall h p l, child_nodes h p = Ok l ->
  first_child h p = Ok (l !! 0) /\ last_child h p = Ok (l !! (length l - 1)%nat) /\ has_child_nodes h p = Ok (0 <? length l)%nat.
Proof.
  intros h p l (np & Hp & <-)%child_nodes_ok. unfold first_child, last_child, has_child_nodes. rewrite (get_node_some _ _ _ Hp). cbn [rbind].
  rewrite head_lookup, last_lookup. split; [done|]. split; [f_equal; f_equal; lia|]. by destruct (n_children np).
Qed.
Print Assumptions C34_ends.
Theorem C34_enumeration : forall h p l o, consistent_at h p l -> first_child h p = Ok o -> enumerates h o l.
Proof.
  intros h p l o Hc H. pose proof Hc as (Hl & _). destruct (C34_ends h p l Hl) as (Hf & _). rewrite Hf in H. injection H as <-.
  change l with (drop 0 l) at 2. apply (enumerates_from h p); [done|lia].
Qed.
Print Assumptions C34_enumeration.
(** Every node but an Attribute is consistent with its children in the histories of C27. *)
Theorem C34_consistent : forall h p l t, guided tame h -> child_nodes h p = Ok l -> node_type_of h p = Ok t -> t <> NAttribute -> consistent_at h p l.
Proof.
  intros h p l t Hg Hl Ht Hne. destruct (C27_two_way h Hg p l t Hl Ht Hne) as [Hnd H]. split; [done|]. split; [done|]. intros c. by apply H.
Qed.
Print Assumptions C34_consistent.
(** Nodes without a parent have no siblings. *)
Theorem C34_no_parent : forall h c, parent_node h c = Ok None -> next_sibling h c = Ok None /\ previous_sibling h c = Ok None.
Proof.
  intros h c H. unfold parent_node, next_sibling, previous_sibling in *. destruct (get_node h c) as [n| | |]; try done. cbn [rbind] in *.
  destruct (is_type NAttribute n); [done|]. injection H as ->. done.
Qed.
Print Assumptions C34_no_parent.
Example ex_sib_consistent : consistent_at ex_sib 1 [2; 3; 4; 5].
Proof.
  split; [by vm_compute|]. split; [apply NoDup_ListNoDup, (bool_decide_unpack _); by vm_compute|]. intros c Hin.
  assert (H : Forall (fun c => parent_node ex_sib c = Ok (Some 1)) [2; 3; 4; 5]) by (repeat constructor; by vm_compute).
  rewrite Forall_forall in H. apply H. by apply elem_of_list_In.
Qed.
Example C34_example : next_sibling ex_sib 3 = Ok (Some 4) /\ previous_sibling ex_sib 3 = Ok (Some 2) /\ next_sibling ex_sib 5 = Ok None
  /\ previous_sibling ex_sib 2 = Ok None /\ last_child ex_sib 1 = Ok (Some 5).
Proof. by vm_compute. Qed.

(** ** C33 *)
(** What a successful call does, for all four positions of the new child relative to the old one. *)
Lemma removed_state h h1 p o l1 l2 : reachable h -> consistent_at h p (l1 ++ o :: l2) -> remove_child p o h = (h1, Ok o) ->
  Inv h1 /\ consistent_at h1 p (l1 ++ l2) /\ parent_node h1 o = Ok None /\ next_sibling h o = Ok (head l2) /\
  (forall c, c <> o -> parent_node h1 c = parent_node h c).
Proof.
  intros Hr Hco Hrm. pose proof Hco as (Hl & Hnd & Hpar).
  destruct (C32_found h p o _ Hr Hl) as (h1' & l' & E & Hl' & Hw & Ho & [Hnx Hfr] & (np & np' & Hp & Hp' & Hsp) & (no & no' & Hno & Hno' & Hso));
    [rewrite in_app_iff; right; by left|].
  rewrite Hrm in E. injection E as <-. destruct (NoDup_app_notin _ _ _ Hnd) as [Hn1 Hn2].
  assert (l' = l1 ++ l2) as -> by (eapply without_first_fun; [exact Hw|by constructor]).
  assert (HI1 : Inv h1).
  { pose proof (reachable_inv h Hr) as HI. destruct (remove_child_inv h h1 p o _ HI Hrm Logic.I) as (np0 & Hp0 & [(_ & _ & ?)|(nc & k & Hc & Hk & Hne & -> & _)]); [done|].
    eapply prim_inv; [|exact HI]. by apply pr_remove. }
  assert (Hpn : forall c, c <> o -> parent_node h1 c = parent_node h c).
  { intros c Hc. unfold parent_node, get_node. destruct (decide (c = p)) as [->|Hcp].
    - rewrite Hp, Hp'. cbn [rbind]. destruct Hsp as (Ht & _ & _ & Hpp & _). unfold is_type. rewrite Ht, Hpp.
      destruct (type_eqb _ _); [done|]. f_equal. unfold upgrade, alive. destruct (n_parent np) as [q|]; [|done].
      destruct (decide (q = p)) as [->|]; [by rewrite Hp, Hp'|]. destruct (decide (q = o)) as [->|]; [by rewrite Hno, Hno'|]. rewrite Hfr; [done|tauto].
    - rewrite Hfr by tauto. destruct (h_nodes h !! c) as [nc|]; [|done]. cbn [rbind]. destruct (is_type _ _); [done|]. f_equal.
      unfold upgrade, alive. destruct (n_parent nc) as [q|]; [|done].
      destruct (decide (q = p)) as [->|]; [by rewrite Hp, Hp'|]. destruct (decide (q = o)) as [->|]; [by rewrite Hno, Hno'|]. rewrite Hfr; [done|tauto]. }
  split_and!; [done| |done| |done].
  - split; [done|]. split; [by apply NoDup_remove_1 in Hnd|]. intros c Hin.
    rewrite Hpn; [apply Hpar; rewrite in_app_iff in *; cbn; tauto|]. intros ->. rewrite in_app_iff in Hin. tauto.
  - rewrite (next_sibling_eq h p _ (length l1) o Hco).
    + rewrite lookup_app_r by lia. replace (S (length l1) - length l1)%nat with 1%nat by lia. by rewrite head_lookup.
    + rewrite lookup_app_r by lia. by rewrite Nat.sub_diag.
Qed.
Lemma insert_children h h' p c r x l : Inv h -> consistent_at h p l -> insert_before p c r h = (h', Ok x) ->
  exists l0 k, (if decide (parent_node h c = Ok (Some p)) then without_first c l l0 else l0 = l) /\
    child_nodes h' p = Ok (take k l0 ++ c :: drop k l0) /\
    match r with None => k = length l0 | Some y => position y l = Some k end.
Proof.
  intros HI ((np & Hp & <-)%child_nodes_ok & _ & _) H.
  destruct (insert_ok h h' p c r x HI H) as (_ & np1 & nc & l0 & k & np' & nc' & [? ? ? ? ? ? ? ? ? Hl0 Hl0' Hch Hk ? ? ? ? ? ?]).
  assert (np1 = np) by congruence. subst np1. exists l0, k. split; [destruct (decide _); auto|].
  split; [rewrite <- Hch; apply child_nodes_ok; eauto|]. destruct r; tauto.
Qed.
Lemma insert_parents h h' p c r x i : Inv h -> insert_before p c r h = (h', Ok x) -> i <> c -> parent_node h' i = parent_node h i.
Proof.
  intros HI H Hi. destruct (insert_ok h h' p c r x HI H) as (_ & np & nc & l0 & k & np' & nc' & [Hp Hc Hp' Hc' Hne Hsp Hsc Hpar Hal _ _ _ _ Hfr Hold _ _ _ _]).
  assert (G : forall j, (exists n, h_nodes h !! j = Some n /\ exists n', h_nodes h' !! j = Some n' /\ n_type n' = n_type n /\ (j <> c -> n_parent n' = n_parent n))
     \/ h_nodes h !! j = None /\ h_nodes h' !! j = None).
  { intros j. destruct (decide (j = p)) as [Ejp|Hjp]; [subst j; left; destruct Hsp as (? & _ & _ & ? & _); eauto 8|].
    destruct (decide (j = c)) as [Ejc|Hjc]; [subst j; left; destruct Hsc as (? & _); exists nc; split; [done|]; exists nc'; by split_and!|].
    destruct (decide (parent_node h c = Ok (Some j))) as [Hd|Hd].
    - destruct (Hold j Hjp Hd) as (nq & nq' & ? & ? & (? & _ & _ & ? & _) & _). left. eauto 8.
    - rewrite (Hfr j Hjp Hjc Hd). destruct (h_nodes h !! j) as [n|]; [left; eauto 8|by right]. }
  unfold parent_node, get_node. destruct (G i) as [(n & -> & n' & -> & Ht & Hpp)|[-> ->]]; [|done]. cbn [rbind]. unfold is_type. rewrite Ht, (Hpp Hi).
  destruct (type_eqb _ _); [done|]. f_equal. unfold upgrade, alive. destruct (n_parent n) as [q|]; [|done].
  destruct (G q) as [(m & -> & m' & -> & _)|[-> ->]]; done.
Qed.
Lemma replace_ok h h' p n o x l1 l2 : reachable h -> consistent_at h p (l1 ++ o :: l2) -> replace_child p n o h = (h', Ok x) ->
  x = o /\ exists h1, Inv h1 /\ consistent_at h1 p (l1 ++ l2) /\ parent_node h1 o = Ok None /\ (forall c, c <> o -> parent_node h1 c = parent_node h c) /\
    insert_before p n (head l2) h1 = (h', Ok n).
Proof.
  intros Hr Hco H. destruct (replace_child_inv h h' p n o _ (reachable_inv h Hr) H Logic.I) as (np & nc & _ & _ & [(_ & ? & _)|[(_ & _ & ? & _)|(_ & _ & next & h1 & Hn & Hrm & [([= ->] & y & Hi)|(e & ? & _)])]]); try done.
  split; [done|]. destruct (removed_state h h1 p o l1 l2 Hr Hco Hrm) as (HI1 & Hco1 & Ho & Hn' & Hpn). rewrite Hn in Hn'. injection Hn' as ->.
  exists h1. split_and!; try done. destruct (insert_ok h1 h' p n _ y HI1 Hi) as [-> _]. done.
Qed.
Lemma head_position l1 (l2 : list id) : List.NoDup (l1 ++ l2) ->
  match head l2 with None => l2 = [] | Some y => position y (l1 ++ l2) = Some (length l1) end.
Proof. destruct l2 as [|y l2]; [done|]. intros H. cbn. apply position_app. by destruct (NoDup_app_notin _ _ _ H). Qed.

Theorem C33_result : forall h h' p n o x l1 l2, reachable h -> consistent_at h p (l1 ++ o :: l2) -> replace_child p n o h = (h', Ok x) ->
  x = o /\ parent_node h' n = Ok (Some p) /\ (n <> o -> parent_node h' o = Ok None).
Proof.
  intros h h' p n o x l1 l2 Hr Hco H. destruct (replace_ok h h' p n o x l1 l2 Hr Hco H) as (-> & h1 & HI1 & Hco1 & Ho & Hpn & Hi).
  split; [done|]. split.
  - destruct (insert_ok h1 h' p n _ n HI1 Hi) as (_ & np & nc & l0 & k & np' & nc' & [Hp Hc Hp' Hc' Hne Hsp Hsc Hpar Hal _ _ _ _ Hfr Hold _ _ _ _]).
    apply parent_node_some. exists nc', np'. split; [done|]. split; [|done]. destruct Hsc as [-> _]. by destruct (child_type_docs _ _ Hal) as (_ & _ & ? & _).
  - intros Hne. by rewrite (insert_parents h1 h' p n _ n o HI1 Hi) by congruence.
Qed.
Print Assumptions C33_result.
(** A new child from elsewhere takes the place of the old one. *)
Theorem C33_in_place : forall h h' p n o x l1 l2, reachable h -> consistent_at h p (l1 ++ o :: l2) -> ~ In n (l1 ++ l2) ->
  replace_child p n o h = (h', Ok x) -> child_nodes h' p = Ok (l1 ++ n :: l2).
Proof.
  intros h h' p n o x l1 l2 Hr Hco Hni H. destruct (replace_ok h h' p n o x l1 l2 Hr Hco H) as (-> & h1 & HI1 & Hco1 & Ho & Hpn & Hi).
  destruct (insert_children h1 h' p n _ n _ HI1 Hco1 Hi) as (l0 & k & Hl0 & Hch & Hk).
  assert (l0 = l1 ++ l2) as ->.
  { destruct (decide _); [|done]. inversion Hl0 as [a b Ha E]. exfalso. apply Hni. rewrite <- E, in_app_iff. right. by left. }
  pose proof Hco1 as (_ & Hnd1 & _). pose proof (head_position l1 l2 Hnd1) as Hh. destruct (head l2) as [y|].
  - rewrite Hh in Hk. injection Hk as <-. by rewrite place_before in Hch.
  - subst l2 k. rewrite place_end in Hch. by rewrite app_nil_r in Hch.
Qed.
Print Assumptions C33_in_place.
(** So does a later sibling. *)
Theorem C33_later_sibling : forall h h' p n o x l1 m l2, reachable h -> consistent_at h p (l1 ++ o :: m ++ n :: l2) ->
  replace_child p n o h = (h', Ok x) -> child_nodes h' p = Ok (l1 ++ n :: m ++ l2).
Proof.
  intros h h' p n o x l1 m l2 Hr Hco H. destruct (replace_ok h h' p n o x l1 _ Hr Hco H) as (-> & h1 & HI1 & Hco1 & Ho & Hpn & Hi).
  destruct (insert_children h1 h' p n _ n _ HI1 Hco1 Hi) as (l0 & k & Hl0 & Hch & Hk).
  pose proof Hco1 as (_ & Hnd1 & Hpar1). rewrite decide_True in Hl0 by (apply Hpar1; rewrite !in_app_iff; right; right; by left).
  assert (l0 = l1 ++ m ++ l2) as ->.
  { eapply without_first_fun; [exact Hl0|]. rewrite !app_assoc. constructor. rewrite app_assoc in Hnd1. by destruct (NoDup_app_notin _ _ _ Hnd1). }
  pose proof (head_position l1 _ Hnd1) as Hh. destruct (head (m ++ n :: l2)) as [y|] eqn:Hy; [|by destruct m].
  rewrite Hh in Hk. injection Hk as <-. by rewrite place_before in Hch.
Qed.
Print Assumptions C33_later_sibling.
(** An earlier sibling does if the old child is the last one, and otherwise ends one place too late. *)
Theorem C33_earlier_sibling : forall h h' p n o x l1 m l2, reachable h -> consistent_at h p (l1 ++ n :: m ++ o :: l2) ->
  replace_child p n o h = (h', Ok x) ->
  child_nodes h' p = Ok (match l2 with [] => l1 ++ m ++ [n] | y :: l3 => l1 ++ m ++ y :: n :: l3 end).
Proof.
  intros h h' p n o x l1 m l2 Hr Hco H.
  assert (E : l1 ++ n :: m ++ o :: l2 = (l1 ++ n :: m) ++ o :: l2) by (by rewrite <- app_assoc). rewrite E in Hco.
  destruct (replace_ok h h' p n o x _ _ Hr Hco H) as (-> & h1 & HI1 & Hco1 & Ho & Hpn & Hi).
  destruct (insert_children h1 h' p n _ n _ HI1 Hco1 Hi) as (l0 & k & Hl0 & Hch & Hk).
  pose proof Hco1 as (_ & Hnd1 & Hpar1). rewrite decide_True in Hl0 by (apply Hpar1; rewrite !in_app_iff; left; right; by left).
  assert (l0 = l1 ++ m ++ l2) as ->.
  { eapply without_first_fun; [exact Hl0|]. rewrite <- app_assoc. cbn. constructor. rewrite <- app_assoc in Hnd1. by destruct (NoDup_app_notin _ _ _ Hnd1). }
  pose proof (head_position _ _ Hnd1) as Hh. destruct l2 as [|y l3]; cbn [head] in Hk, Hh.
  - subst k. rewrite place_end in Hch. rewrite app_nil_r in Hch. by rewrite <- app_assoc in Hch.
  - cbn in Hh. rewrite Hh in Hk. injection Hk as <-.
    replace (length (l1 ++ n :: m)) with (length (l1 ++ m ++ [y])) in Hch by (rewrite !app_length; cbn; lia).
    replace (l1 ++ m ++ y :: l3) with ((l1 ++ m ++ [y]) ++ l3) in Hch by (rewrite <- !app_assoc; done).
    rewrite place_before in Hch. rewrite <- !app_assoc in Hch. done.
Qed.
Print Assumptions C33_earlier_sibling.
(** Failures: in the first two cases nothing has happened, in the third the old child has been removed already. *)
Theorem C33_error : forall h h' p n o e, reachable h -> replace_child p n o h = (h', Err e) ->
  (~ permitted h p n /\ e = HierarchyRequest /\ h' = h) \/
  (permitted h p n /\ ~ child h p o /\ e = NotFound /\ h' = h) \/
  (permitted h p n /\ child h p o /\ remove_child p o h = (h', Ok o) /\ exists next, next_sibling h o = Ok next /\ refused h' p n next e).
Proof.
  intros h h' p n o e Hr H. pose proof (reachable_inv h Hr) as HI.
  destruct (replace_child_inv h h' p n o _ HI H Logic.I) as (np & nc & Hp & Hc & [(Hal & [= ->] & ->)|[(Hal & Hni & [= ->] & ->)|(Hal & Hin & next & h1 & Hn & Hrm & [(? & _)|(e' & [= <-] & Hi)])]]); [| |done|].
  - left. rewrite (permitted_iff h p n np nc) by done. split; [congruence|done].
  - right. left. rewrite (permitted_iff h p n np nc), (child_iff h p np) by done. done.
  - right. right. rewrite (permitted_iff h p n np nc), (child_iff h p np) by done. split; [done|]. split; [done|].
    assert (HI1 : Inv h1).
    { destruct (remove_child_inv h h1 p o _ HI Hrm Logic.I) as (np0 & Hp0 & [(_ & _ & ?)|(no & k & Hno & Hk & Hne & -> & _)]); [done|].
      eapply prim_inv; [|exact HI]. by apply pr_remove. }
    destruct (insert_before_inv h1 h' p n next _ HI1 Hi Logic.I) as (np1 & nc1 & Hp1 & Hc1 & [(e' & [= <-] & -> & Hf)|(? & _)]); [|done].
    split; [done|]. exists next. split; [done|]. by eapply fails_refused.
Qed.
Print Assumptions C33_error.
Example C33_example : children_after 1 (replace_child 1 8 3) ex_sib = Ok [2; 8; 4; 5] /\ children_after 1 (replace_child 1 4 3) ex_sib = Ok [2; 4; 5]
  /\ children_after 1 (replace_child 1 2 5) ex_sib = Ok [3; 4; 2] /\ children_after 1 (replace_child 1 3 3) ex_sib = Ok [2; 3; 4; 5].
Proof. by vm_compute. Qed.
(** DOM wants [2; 4; 5] here, and no change at all when the call fails. *)
Theorem C33_dom_refuted : children_after 1 (replace_child 1 2 3) ex_sib = Ok [4; 2; 5] /\
  let h := default empty_heap (run env0 (ex_tree_ops ++ [OCreateComment 2 (lit "other")]) empty_heap) in
  exists h', replace_child 1 8 4 h = (h', Err WrongDocument) /\ child_nodes h 1 = Ok [4; 5] /\ child_nodes h' 1 = Ok [5].
Proof. split; [by vm_compute|]. eexists. split; [by vm_compute|]. by vm_compute. Qed.
Print Assumptions C33_dom_refuted.
