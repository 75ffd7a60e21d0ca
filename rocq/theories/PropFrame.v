(** * C63: what a call leaves alone *)
From Coq Require Import Lia.
From Verif Require Import SpecFrame SpecTree ProofText ProofName ProofInv ProofSteps ProofOps ProofTree ProofFrame.

(** Whatever its outcome, a call keeps every node alive that is not dropped, never changes a type, a name or an owner document, and
    changes only the parts of nodes that [writes] names. *)
Theorem C63_locality : forall E h o h' r, wf_env E -> reachable h -> exec E o h = (h', r) ->
  forall j n, h_nodes h !! j = Some n -> ~ drops o j ->
  exists n', h_nodes h' !! j = Some n' /\ n_type n' = n_type n /\ n_name n' = n_name n /\ n_owner n' = n_owner n /\
    forall f, writes h o j f \/ part_same n n' f.
Proof.
  intros E h o h' r HE Hr H j n Hn Hd. pose proof (reachable_inv h Hr) as HI.
  assert (Hlt : (j < h_next h)%nat) by (by eapply inv_lt).
  assert (G : (exists l, o = ODrop l) \/ forall l, o <> ODrop l) by (destruct o; try (right; intros; discriminate); left; eauto).
  destruct G as [[l ->]|Hnd].
  - cbn in H. unfold out, drop_nodes, bind in H. destruct (bool_decide (can_drop h l)); injection H as <- <-.
    + exists n. split; [apply (lookup_dropped l h j n); split; [exact Hd|exact Hn]|]. split; [done|]. split; [done|]. split; [done|]. intros f. right. by destruct f.
    + exists n. split; [done|]. split; [done|]. split; [done|]. split; [done|]. intros f. right. by destruct f.
  - destruct (fr_some _ _ _ _ (exec_frame E h o h' r HE HI H Hnd) j n Hlt Hn) as (n' & Hn' & HS & Hf). exists n'. injection HS as H1 H2 H3. auto.
Qed.
Print Assumptions C63_locality.
(** A node that is gone never comes back, and no call creates a node under an identity used before. *)
Theorem C63_no_resurrection : forall E h o h' r, wf_env E -> reachable h -> exec E o h = (h', r) ->
  (h_next h <= h_next h')%nat /\ forall j, (j < h_next h)%nat -> h_nodes h !! j = None -> h_nodes h' !! j = None.
Proof.
  intros E h o h' r HE Hr H. pose proof (reachable_inv h Hr) as HI.
  assert (G : (exists l, o = ODrop l) \/ forall l, o <> ODrop l) by (destruct o; try (right; intros; discriminate); left; eauto).
  destruct G as [[l ->]|Hnd].
  - cbn in H. unfold out, drop_nodes, bind in H. destruct (bool_decide (can_drop h l)); injection H as <- <-; [|done]. split; [done|]. intros j _ Hj.
    destruct (h_nodes (dropped l h) !! j) as [m|] eqn:Hm; [apply lookup_dropped in Hm as [_ Hm]; congruence|exact Hm].
  - pose proof (exec_frame E h o h' r HE HI H Hnd) as F. split; [apply (fr_next _ _ _ _ F)|apply (fr_none _ _ _ _ F)].
Qed.
Print Assumptions C63_no_resurrection.

(** Nodes of other documents than those of the nodes it is given are out of reach. *)
Lemma doc_of_some h j n : h_nodes h !! j = Some n -> document_of h j = if is_type NDocument n then Some j else n_owner n.
Proof. intros Hn. unfold document_of, node_type_of, owner_link, is_type, get_node. rewrite Hn. cbn. by destruct (n_type n). Qed.
Lemma doc_of_child h p c : Inv h -> has_child h p c -> is_text h c -> document_of h p = document_of h c.
Proof.
  intros HI (n & Hn & Hc) (m' & Hm' & Ht). destruct (inv_node h HI p n Hn) as (_ & _ & _ & [G _] & _). destruct (G c Hc) as (_ & s & Hs & Hal & Hown).
  apply info_inv in Hs as (m & Hm & <-). assert (m' = m) as -> by congruence. cbn in Hal, Hown. rewrite (doc_of_some _ _ _ Hn), (doc_of_some _ _ _ Hm).
  unfold is_type. rewrite Ht in *. cbn. destruct (n_type n) eqn:Tn; try done; cbn; symmetry; by apply Hown.
Qed.
Lemma doc_of_parent h c p : Inv h -> has_parent h c p -> alive h p = true -> document_of h p = document_of h c.
Proof.
  intros HI (n & Hn & Hp) Hal. apply alive_true in Hal as [m Hm]. destruct (inv_node h HI c n Hn) as (_ & _ & G & _). destruct (G p Hp) as (_ & Hcb & Hs).
  destruct (Hs _ (info_some _ _ _ Hm)) as [[_ Hl] Hd]. cbn in Hl, Hd. rewrite (doc_of_some _ _ _ Hn), (doc_of_some _ _ _ Hm).
  replace (is_type NDocument n) with false by (unfold is_type; by destruct (n_type n)).
  destruct (is_type NDocument m) eqn:Ht; [apply is_type_true in Ht; symmetry; by apply Hd|apply is_type_false in Ht; symmetry; by apply Hl].
Qed.
Lemma doc_of_owner h c d : Inv h -> has_owner h c d -> alive h d = true -> document_of h d = document_of h c.
Proof.
  intros HI (n & Hn & Ho) Hal. apply alive_true in Hal as [m Hm]. destruct (inv_node h HI c n Hn) as (_ & G & _). rewrite (doc_of_some _ _ _ Hn), (doc_of_some _ _ _ Hm).
  unfold owner_ok in G. unfold is_type. destruct (n_type n) eqn:Tn; try congruence; destruct G as (d' & Hd' & _ & Hs);
    (assert (d' = d) as -> by congruence); specialize (Hs _ (info_some _ _ _ Hm)); cbn in Hs; rewrite Hs; unfold type_eqb; rewrite bool_decide_eq_true_2 by done; rewrite ?bool_decide_eq_false_2 by done; congruence.
Qed.
Lemma doc_of_attr h e a : Inv h -> has_attr h e a -> document_of h a = document_of h e.
Proof.
  intros HI (n & attrs & ns & k & Hn & Hx & Hin). destruct (inv_node h HI e n Hn) as (G & _). unfold ext_ok in G. rewrite Hx in G. destruct G as (Te & _ & G & _).
  destruct (G k a Hin) as (s & Hs & Ts & _ & Ho). apply info_inv in Hs as (m & Hm & <-). cbn in *. rewrite (doc_of_some _ _ _ Hn), (doc_of_some _ _ _ Hm). unfold is_type. by rewrite Te, Ts.
Qed.
Theorem C63_other_documents : forall E h o h' r, wf_env E -> reachable h -> exec E o h = (h', r) ->
  forall j n, h_nodes h !! j = Some n -> ~ drops o j -> (forall i, In i (op_nodes o) -> document_of h i <> document_of h j) ->
  h_nodes h' !! j = Some n.
Proof.
  intros E h o h' r HE Hr H j n Hn Hd Hdoc. pose proof (reachable_inv h Hr) as HI. destruct (C63_locality E h o h' r HE Hr H j n Hn Hd) as (n' & Hn' & H1 & H2 & H3 & Hf).
  assert (Hal : alive h j = true) by (apply alive_true; by exists n).
  assert (W : forall f, ~ writes h o j f).
  { intros f Hw. assert (G : exists i, In i (op_nodes o) /\ document_of h i = document_of h j); [|destruct G as (i & Hi & He); by apply (Hdoc i Hi)].
    destruct o; cbn in Hw; try done; cbn [op_nodes];
      repeat match goal with
      | X : _ \/ _ |- _ => destruct X
      | X : _ /\ _ |- _ => destruct X
      | X : exists _, _ |- _ => destruct X
      end; subst;
      try (eexists; split; [left; reflexivity|]; first [reflexivity
         | symmetry; by eapply doc_of_parent | symmetry; by eapply doc_of_owner | symmetry; by eapply doc_of_attr | by eapply doc_of_child ]; fail);
      try (eexists; split; [right; left; reflexivity|]; first [reflexivity
         | symmetry; by eapply doc_of_parent | symmetry; by eapply doc_of_owner ]; fail);
      try (eexists; split; [right; right; left; reflexivity|]; reflexivity).
    eexists. split; [left; reflexivity|].
    match goal with
    | A : has_child h i ?c, B : is_text h ?c, C : has_parent h ?c ?q, D : has_child h ?q j, F : is_text h j |- _ =>
        rewrite (doc_of_child h i c HI A B); rewrite <- (doc_of_child h q j HI D F); symmetry; apply (doc_of_parent h c q HI C); destruct D as (nq & Hq & _); apply alive_true; by exists nq
    end. }
  rewrite Hn'. f_equal. destruct n, n'; cbn in *.
  destruct (Hf PValue) as [X|X1]; [by apply W in X|]. destruct (Hf PParent) as [X|X2]; [by apply W in X|]. destruct (Hf PChildren) as [X|X3]; [by apply W in X|]. destruct (Hf PMaps) as [X|X4]; [by apply W in X|].
  cbn in *. congruence.
Qed.
Print Assumptions C63_other_documents.

(** Not vacuous: a state with two documents, and calls in the first. *)
Definition ex_frame_ops : list op :=
  [OCreateDocument None (Some (lit "a")) None options_new; OCreateDocument None (Some (lit "b")) None options_new;
   OCreateText 0 (lit "x"); OAppendChild 1 4; OCreateAttributeWith 0 (lit "k") (lit "y"); OAppendChild 1 5].
Definition ex_frame : heap := default empty_heap (run env0 ex_frame_ops empty_heap).
Lemma ex_frame_reachable : reachable ex_frame.
Proof. apply (run0_reachable ex_frame_ops). by vm_compute. Qed.
Example C63_example : reachable ex_frame /\ document_of ex_frame 1 = Some 0 /\ document_of ex_frame 3 = Some 2 /\
  child_nodes ex_frame 1 = Ok [4; 5] /\ child_nodes ex_frame 6 = Ok [5] /\ node_value ex_frame 4 = Ok (Some (lit "x")).
Proof. split; [apply ex_frame_reachable|by vm_compute]. Qed.
(** Normalizing an attribute can change a text that is neither its child nor its descendant. *)
Theorem C63_normalize_own_children_refuted : exists h h', reachable h /\ exec env0 (ONormalize 6) h = (h', Ok None) /\ child_nodes h 6 = Ok [5] /\
  node_value h 4 = Ok (Some (lit "x")) /\ node_value h' 4 = Ok (Some (lit "xy")) /\ parent_node h 4 = Ok (Some 1).
Proof. exists ex_frame. eexists. split; [apply ex_frame_reachable|]. split; [by vm_compute|]. by vm_compute. Qed.
Print Assumptions C63_normalize_own_children_refuted.
