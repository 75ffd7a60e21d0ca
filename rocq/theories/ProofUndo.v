(** * ProofUndo: exact states after an insertion *)
From Coq Require Import Lia.
From Verif Require Import SpecTree ProofText ProofName ProofInv ProofSteps ProofOps ProofTree ProofInsert.

Lemma heap_eq (h h' : heap) : h_next h' = h_next h -> (forall i, h_nodes h' !! i = h_nodes h !! i) -> h' = h.
Proof. destruct h, h'. cbn. intros -> H. f_equal. by apply map_eq. Qed.
Lemma node_eq (n n' : node) : same_but_parent n n' -> n_parent n' = n_parent n -> n' = n.
Proof. destruct n, n'. intros (? & ? & ? & ? & ? & ?) ?. cbn in *. by subst. Qed.
Lemma set_children_same n : set_children (n_children n) n = n. Proof. by destruct n. Qed.
Lemma set_parent_same n p : n_parent n = p -> set_parent p n = n. Proof. intros <-. by destruct n. Qed.
Lemma position_In c l k : position c l = Some k -> In c l.
Proof. intros [H _]%position_lookup. by eapply elem_of_list_In, elem_of_list_lookup_2. Qed.

Definition place (r : option id) (l l0 : list id) (k : nat) : Prop :=
  match r with None => k = length l0 | Some y => position y l = Some k end.

(** Nothing refuses it: it succeeds, and this is the state after. *)
Lemma insert_state h p c r np nc : Inv h -> h_nodes h !! p = Some np -> h_nodes h !! c = Some nc -> p <> c ->
  is_child_allowed (n_type np) (n_type nc) = true -> no_second h np nc -> document_of h p = document_of h c ->
  (forall d, document_of h p = Some d -> alive h d = true) -> (forall y, r = Some y -> In y (n_children np)) ->
  (forall q nq, n_parent nc = Some q -> h_nodes h !! q = Some nq -> In c (n_children nq)) ->
  exists h1 np1 nc1 k, taken_out h c nc h1 /\ h_nodes h1 !! p = Some np1 /\ h_nodes h1 !! c = Some nc1 /\
    place r (n_children np) (n_children np1) k /\ insert_before p c r h = (attached h1 p c np1 nc1 k, Ok c).
Proof.
  intros HI Hp Hc Hne Hal Hsec Hdoc Hd Hr Hst.
  destruct (insert_returns h p c r np nc HI Hp Hc Hne Hd) as (h' & x & H & Hx); [by rewrite <- Hdoc|].
  destruct (insert_before_inv h h' p c r x HI H Hx) as (np' & nc' & Hp' & Hc' & Hor).
  assert (np' = np) by congruence. assert (nc' = nc) by congruence. subst np' nc'.
  destruct Hor as [(e & -> & -> & Hf)|(-> & h1 & np1 & nc1 & k & Hto & Hp1 & Hc1 & _ & -> & _ & Hk & _)].
  - exfalso. destruct Hf as [Hf|y ny _ H1 H2 Hy Hny Ht|y _ _ -> Hy|_ _ _ Hcsd|q nq _ _ _ _ Hq Hnq Hni].
    + congruence.
    + by eapply Hsec.
    + by apply Hy, Hr.
    + destruct (csd_document h p c np nc HI Hp Hc Hal) as [_ G]. by apply G.
    + by eapply Hni, Hst.
  - exists h1, np1, nc1, k. split; [done|]. split; [done|]. split; [done|]. split; [|done]. by destruct r.
Qed.
Lemma insert_loose h p c r np nc k : Inv h -> h_nodes h !! p = Some np -> h_nodes h !! c = Some nc -> p <> c ->
  is_child_allowed (n_type np) (n_type nc) = true -> no_second h np nc -> document_of h p = document_of h c ->
  (forall d, document_of h p = Some d -> alive h d = true) -> upgrade h (n_parent nc) = None ->
  place r (n_children np) (n_children np) k -> insert_before p c r h = (attached h p c np nc k, Ok c).
Proof.
  intros HI Hp Hc Hne Hal Hsec Hdoc Hd Hup Hk.
  destruct (insert_state h p c r np nc) as (h1 & np1 & nc1 & k' & Hto & Hp1 & Hc1 & Hk' & E); try done.
  - intros y ->. by eapply position_In.
  - intros q nq Hq Hnq. rewrite Hq in Hup. unfold upgrade, alive in Hup. by rewrite Hnq in Hup.
  - destruct Hto as [_|q nq kq Hup' _ _ _]; [|congruence]. assert (np1 = np) by congruence. assert (nc1 = nc) by congruence. subst np1 nc1.
    rewrite E. destruct r; cbn in *; [|by subst]. congruence.
Qed.
Lemma insert_linked h p c r np nc q nq kq np1 k : Inv h -> h_nodes h !! p = Some np -> h_nodes h !! c = Some nc -> p <> c ->
  is_child_allowed (n_type np) (n_type nc) = true -> no_second h np nc -> document_of h p = document_of h c ->
  (forall d, document_of h p = Some d -> alive h d = true) -> n_parent nc = Some q -> h_nodes h !! q = Some nq -> position c (n_children nq) = Some kq ->
  np1 = (if decide (q = p) then set_children (delete kq (n_children np)) np else np) ->
  (forall y, r = Some y -> In y (n_children np)) -> place r (n_children np) (n_children np1) k ->
  insert_before p c r h = (attached (removed h q c nq nc kq) p c np1 (set_parent None nc) k, Ok c).
Proof.
  intros HI Hp Hc Hne Hal Hsec Hdoc Hd Hq Hnq Hkq Hnp1 Hy Hk.
  destruct (insert_state h p c r np nc) as (h1 & np2 & nc2 & k' & Hto & Hp2 & Hc2 & Hk' & E); try done.
  - intros q' nq' Hq' Hnq'. assert (q' = q) by congruence. subst q'. assert (nq' = nq) by congruence. subst nq'. by eapply position_In.
  - revert Hp2 Hc2. destruct Hto as [Hup|q' nq' kq' Hup Hnq' Hqc Hkq']; intros Hp2 Hc2.
    { rewrite Hq in Hup. unfold upgrade, alive in Hup. by rewrite Hnq in Hup. }
    apply upgrade_some in Hup as [Hq' _]. assert (q' = q) by congruence. subst q'. assert (nq' = nq) by congruence. subst nq'.
    assert (kq' = kq) by congruence. subst kq'. unfold removed in Hc2, Hp2. rewrite lookup_upd in Hc2. injection Hc2 as <-.
    rewrite lookup_upd_ne in Hp2 by done. assert (np2 = np1) as ->.
    { subst np1. destruct (decide (q = p)) as [->|Hqp].
      - rewrite lookup_upd in Hp2. injection Hp2 as <-. assert (nq = np) as -> by congruence. done.
      - rewrite lookup_upd_ne in Hp2 by done. congruence. }
    rewrite E. destruct r; cbn in *; [|by subst]. congruence.
Qed.
