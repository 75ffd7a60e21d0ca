(** * C37: clone_node *)
From Coq Require Import Lia.
From Verif Require Import NsModel SpecWalk ProofText ProofName PropName ProofInv ProofSteps ProofOps ProofTree ProofElem ProofWalk PropTree.

Definition keys_lt (h : heap) : Prop := forall i n, h_nodes h !! i = Some n -> (i < h_next h)%nat.
Lemma only_added_refl h : only_added h h. Proof. by split. Qed.
Lemma only_added_trans h1 h2 h3 : only_added h1 h2 -> only_added h2 h3 -> only_added h1 h3.
Proof. intros (H1 & H2 & H5) (H3 & H4 & H6). split; [lia|]. split; [eauto|]. intros i n Hn Hi. apply H5; [|done]. apply H6; [done|lia]. Qed.
Lemma only_added_alloc h n : keys_lt h -> only_added h (allocd n h) /\ keys_lt (allocd n h).
Proof.
  intros Hk. split; [split; [cbn; lia|split]|].
  - intros i m Hi. unfold allocd. cbn. rewrite lookup_insert_ne; [done|]. specialize (Hk i m Hi). lia.
  - intros i m Hi Hlt. unfold allocd in *. cbn in *. by rewrite lookup_insert_ne in Hi by lia.
  - intros i m Hi. unfold allocd in *. cbn in *. destruct (decide (i = h_next h)) as [->|Hne]; [lia|]. rewrite lookup_insert_ne in Hi by done. specialize (Hk i m Hi). lia.
Qed.
Lemma copied_mono h h1 h2 : only_added h1 h2 -> forall t t', copied h h1 t t' -> copied h h2 t t'.
Proof.
  intros (_ & Ha & _). fix IH 3. intros t t' [i j ts ts' n n' Hi Hj Hl Hp Hf]. econstructor; eauto. clear -IH Hf. induction Hf; constructor; auto.
Qed.
Lemma tree_of_mono h1 h2 : only_added h1 h2 -> forall i t, tree_of h1 i t -> tree_of h2 i t.
Proof.
  intros (_ & Ha & _). apply (tree_of_ind' h1 (fun i t => tree_of h2 i t)). intros i cs ts (n & Hn & <-)%child_nodes_ok _ IH.
  apply (tree_intro h2 i (n_children n)); [|done]. apply child_nodes_ok. eauto.
Qed.
(** The clones of a list of children: identities allocated one after the other. *)
Definition fresh_between (a b : nat) (l : list id) : Prop := List.NoDup l /\ forall x, In x l -> (a <= x < b)%nat.
Lemma fresh_app a b c l l' : (a <= b)%nat -> (b <= c)%nat -> fresh_between a b l -> fresh_between b c l' -> fresh_between a c (l ++ l').
Proof.
  intros Hab Hbc [H1 H2] [H3 H4]. split.
  - apply NoDup_ListNoDup, NoDup_app. split; [by apply NoDup_ListNoDup|]. split; [|by apply NoDup_ListNoDup].
    intros x Hx%elem_of_list_In Hx'%elem_of_list_In. specialize (H2 x Hx). specialize (H4 x Hx'). lia.
  - intros x [Hx|Hx]%in_app_iff; [specialize (H2 x Hx)|specialize (H4 x Hx)]; lia.
Qed.
Definition cloned (h h0 : heap) (k : nat) (i : id) (t : tree) : Prop := exists h1 j t',
  clone_rec k true i h0 = (h1, Ok j) /\ only_added h0 h1 /\ keys_lt h1 /\ tree_of h1 j t' /\ copied h h1 t t' /\ fresh_between (h_next h0) (h_next h1) (nodes_of t').
Lemma clone_list h k cs ts : Forall2 (fun i t => forall h0, only_added h h0 -> keys_lt h0 -> cloned h h0 k i t) cs ts ->
  forall h0, only_added h h0 -> keys_lt h0 -> exists h1 js ts', mapM_ (clone_rec k true) cs h0 = (h1, Ok js) /\ only_added h0 h1 /\ keys_lt h1 /\
    Forall2 (tree_of h1) js ts' /\ Forall2 (copied h h1) ts ts' /\ fresh_between (h_next h0) (h_next h1) (concat (map nodes_of ts')).
Proof.
  induction 1 as [|i t cs ts Hi _ IH]; intros h0 Ha Hk.
  { exists h0, [], []. split; [done|]. split; [apply only_added_refl|]. split; [done|]. split; [constructor|]. split; [constructor|]. split; [constructor|done]. }
  destruct (Hi h0 Ha Hk) as (h1 & j & t' & Hc & Ha1 & Hk1 & Ht & Hcp & Hf).
  destruct (IH h1 (only_added_trans _ _ _ Ha Ha1) Hk1) as (h2 & js & ts' & Hc2 & Ha2 & Hk2 & Hts & Hcps & Hfs).
  exists h2, (j :: js), (t' :: ts'). split.
  { cbn [mapM_]. rewrite (bind_ok _ _ _ _ _ Hc), (bind_ok _ _ _ _ _ Hc2). done. }
  split; [by eapply only_added_trans|]. split; [done|].
  split; [constructor; [by eapply tree_of_mono|done]|]. split; [constructor; [by eapply copied_mono|done]|].
  cbn. eapply fresh_app; [| |exact Hf|exact Hfs]; [apply Ha1|apply Ha2].
Qed.
Lemma clone_tree h i t : tree_of h i t -> forall k h0, (depth t <= k)%nat -> only_added h h0 -> keys_lt h0 -> cloned h h0 k i t.
Proof.
  revert i t. apply (tree_of_ind' h (fun i t => forall k h0, (depth t <= k)%nat -> only_added h h0 -> keys_lt h0 -> cloned h h0 k i t)).
  intros i cs ts (n & Hn & Hcs)%child_nodes_ok _ IH k h0 Hd Ha Hk. destruct k as [|k]; [cbn in Hd; lia|].
  assert (Hl : Forall2 (fun i t => forall h0, only_added h h0 -> keys_lt h0 -> cloned h h0 k i t) cs ts).
  { assert (Hdt : forall t, In t ts -> (depth t <= k)%nat) by (intros t Ht; pose proof (depth_child t ts i Ht); lia).
    clear Hd Hn Hcs. induction IH as [|c t cs ts Hct _ IH]; constructor; [intros; apply Hct; auto; apply Hdt; by left|apply IH; intros t' Ht'; apply Hdt; by right]. }
  destruct (clone_list h k cs ts Hl h0 Ha Hk) as (h1 & js & ts' & Hc & Ha1 & Hk1 & Hts & Hcps & Hf).
  set (n' := mkNode (n_type n) (n_name n) (n_value n) None (n_owner n) js (n_ext n)). destruct (only_added_alloc h1 n' Hk1) as [Ha2 Hk2].
  assert (Hn' : h_nodes (allocd n' h1) !! h_next h1 = Some n') by apply lookup_insert.
  exists (allocd n' h1), (h_next h1), (Tr (h_next h1) ts'). split_and!.
  - cbn [clone_rec]. rewrite (bind_node _ n) by (by apply Ha). rewrite Hcs, (bind_ok _ _ _ _ _ Hc). done.
  - by eapply only_added_trans.
  - done.
  - apply (tree_intro _ _ js); [apply child_nodes_ok; by exists n'|]. apply (Forall2_impl _ _ _ _ Hts). intros; by eapply tree_of_mono.
  - eapply copied_intro; [exact Hn|exact Hn'|by split_and!|done|]. apply (Forall2_impl _ _ _ _ Hcps). intros; by eapply copied_mono.
  - destruct Hf as [Hnd Hf]. unfold nodes_of in *. cbn. split.
    + constructor; [|done]. intros Hin. specialize (Hf _ Hin). lia.
    + intros x [<-|Hx]; [destruct Ha1; lia|specialize (Hf x Hx); lia].
Qed.

Theorem C37_deep : forall h i, reachable h -> alive h i = true -> no_cycle_below h i ->
  exists h' j t t', clone_node true i h = (h', Ok j) /\ tree_of h i t /\ tree_of h' j t' /\ copied h h' t t' /\ only_added h h' /\
    List.NoDup (nodes_of t') /\ forall x, In x (nodes_of t') -> (h_next h <= x)%nat /\ alive h x = false.
Proof.
  intros h i Hr Ha%alive_true Hcy. pose proof (reachable_inv h Hr) as HI. destruct (tree_exists h i HI Ha Hcy) as (t & Ht & Hd).
  destruct (clone_tree h i t Ht (walk_fuel h) h) as (h' & j & t' & Hc & Ha' & _ & Ht' & Hcp & Hnd & Hf); [unfold walk_fuel; lia|apply only_added_refl|exact (inv_lt h HI)|].
  exists h', j, t, t'. split_and!; try done. intros x Hx. specialize (Hf x Hx). split; [lia|].
  destruct (alive h x) eqn:Hal; [|done]. apply alive_true in Hal as (n & Hn). apply (inv_lt h HI) in Hn. lia.
Qed.
Print Assumptions C37_deep.
Theorem C37_shallow : forall h i, reachable h -> alive h i = true -> exists h' j n n', clone_node false i h = (h', Ok j) /\
  h_nodes h !! i = Some n /\ h_nodes h' !! j = Some n' /\ looks_like n n' /\ n_parent n' = None /\ n_children n' = [] /\
  only_added h h' /\ alive h j = false /\ forall x, x <> j -> h_nodes h' !! x = h_nodes h !! x.
Proof.
  intros h i Hr (n & Hn)%alive_true. pose proof (reachable_inv h Hr) as HI.
  set (n' := mkNode (n_type n) (n_name n) (n_value n) None (n_owner n) [] (n_ext n)). exists (allocd n' h), (h_next h), n, n'.
  destruct (only_added_alloc h n' (inv_lt h HI)) as [Ha _]. split_and!; try done.
  - unfold clone_node, walk_fuel. cbn [clone_rec]. rewrite (bind_node _ n) by done. done.
  - apply lookup_insert.
  - destruct (alive h (h_next h)) eqn:Hal; [|done]. apply alive_true in Hal as (m & Hm). apply (inv_lt h HI) in Hm. lia.
  - intros x Hx. unfold allocd. cbn. by rewrite lookup_insert_ne.
Qed.
Print Assumptions C37_shallow.
(** Attribute nodes are not copied: original and copy list the same ones, owned by the original. *)
Theorem C37_attributes_shared : forall h h' deep i j l, reachable h -> clone_node deep i h = (h', Ok j) -> (deep = true -> no_cycle_below h i) -> attributes h i = Ok l ->
  attributes h' i = Ok l /\ attributes h' j = Ok l /\ forall k a, In (k, a) l -> owner_element h' a = owner_element h a.
Proof.
  intros h h' deep i j l Hr Hc Hcy Hl. pose proof (reachable_inv h Hr) as HI. assert (Ha : alive h i = true).
  { apply alive_true. unfold attributes in Hl. destruct (get_node h i) as [n| | |] eqn:Hn; try done. apply get_node_ok in Hn. eauto. }
  assert (G : exists n n', h_nodes h !! i = Some n /\ h_nodes h' !! j = Some n' /\ looks_like n n' /\ only_added h h').
  { destruct deep.
    - destruct (C37_deep h i Hr Ha (Hcy eq_refl)) as (h1 & j1 & t & t' & Hc' & Ht & Ht' & Hcp & Had & _). rewrite Hc in Hc'. injection Hc' as <- <-.
      inversion Hcp as [i1 j1 ts ts' n n' Hi Hj Hlk _ _]; subst. inversion Ht; subst. inversion Ht'; subst. eauto 10.
    - destruct (C37_shallow h i Hr Ha) as (h1 & j1 & n & n' & Hc' & Hi & Hj & Hlk & _ & _ & Had & _). rewrite Hc in Hc'. injection Hc' as <- <-. eauto 10. }
  destruct G as (n & n' & Hi & Hj & (Ht & _ & _ & _ & Hx) & Hnx & Had & Hdead).
  unfold attributes in *. rewrite (get_node_some _ _ _ Hi) in Hl. rewrite (get_node_some _ _ _ (Had _ _ Hi)), (get_node_some _ _ _ Hj). cbn [rbind] in *.
  assert (is_type NElement n' = is_type NElement n) as -> by (unfold is_type; by rewrite Ht). rewrite Hx. split; [done|]. split; [done|]. intros k a Hin.
  assert (Hal : exists na, h_nodes h !! a = Some na).
  { destruct (is_type NElement n); [|by injection Hl as <-]. destruct (inv_node h HI i n Hi) as (Hex & _). unfold ext_ok in Hex.
    destruct (n_ext n) as [| | | |attrs nss| |]; injection Hl as <-; try done. destruct Hex as (_ & _ & Hex & _). destruct (Hex k a Hin) as (s & Hs & _).
    apply info_inv in Hs as (na & Hna & _). eauto. }
  destruct Hal as (na & Hna). unfold owner_element. rewrite (get_node_some _ _ _ Hna), (get_node_some _ _ _ (Had _ _ Hna)). cbn [rbind].
  destruct (inv_node h HI a na Hna) as (Hex & _). unfold ext_ok in Hex. destruct (n_ext na) as [|o| | | | |] eqn:Hxa; try done. f_equal.
  destruct o as [e|]; [|done]. destruct Hex as (_ & Hex). destruct (Hex e eq_refl) as [Hlt _]. cbn [upgrade]. unfold alive.
  destruct (h_nodes h !! e) as [ne|] eqn:He; [by rewrite (Had _ _ He)|].
  destruct (h_nodes h' !! e) as [ne|] eqn:He'; [|done]. rewrite (Hdead _ _ He' Hlt) in He. done.
Qed.
Print Assumptions C37_attributes_shared.

Definition ex_clone_ops : list op :=
  [ OCreateDocument None (Some (lit "r")) None options_new; OCreateElement 0 (lit "a"); OAppendChild 1 2; OCreateText 0 (lit "t"); OAppendChild 2 3;
    OSetAttribute 1 (lit "k") (lit "v"); OSetAttribute 2 (lit "k") (lit "w") ].
Definition ex_clone : heap := default empty_heap (run env0 ex_clone_ops empty_heap).
Example ex_clone_reachable : reachable ex_clone.
Proof. apply (run0_reachable ex_clone_ops). by vm_compute. Qed.
Example ex_clone_tree : tree_of ex_clone 1 (Tr 1 [Tr 2 [Tr 3 []]]).
Proof. repeat (first [constructor|eapply tree_intro; [by vm_compute|]]). Qed.
Example C37_example : no_cycle_below ex_clone 1 /\ let h' := (clone_node true 1 ex_clone).1 in clone_node true 1 ex_clone = (h', Ok 10) /\
  child_nodes h' 10 = Ok [9] /\ child_nodes h' 9 = Ok [8] /\ parent_node h' 9 = Ok None /\ to_string env0 h' 10 = to_string env0 ex_clone 1 /\
  attributes h' 10 = Ok [(mkName None None (lit "k"), 5)].
Proof. split; [eapply tree_no_cycle; exact ex_clone_tree|]. by vm_compute. Qed.
(** So writing an attribute of the copy can change the original. *)
Theorem C37_independent_copy_refuted : exists h h1 h2 i j a, reachable h /\ clone_node true i h = (h1, Ok j) /\ i <> j /\
  get_attribute_node env0 h1 j (lit "k") = Ok (Some a) /\ attr_set_value a (lit "new") h1 = (h2, Ok tt) /\
  get_attribute env0 h i (lit "k") = Ok (Some (lit "v")) /\ get_attribute env0 h2 i (lit "k") = Ok (Some (lit "new")).
Proof.
  pose (h1 := (clone_node true 1 ex_clone).1). exists ex_clone, h1, (attr_set_value 5 (lit "new") h1).1, 1, 10, 5.
  split; [exact ex_clone_reachable|]. by vm_compute.
Qed.
Print Assumptions C37_independent_copy_refuted.
(** And the copied children do not know their parent. *)
Theorem C37_two_way_refuted : exists h h1 i j l c, reachable h /\ two_way h /\ clone_node true i h = (h1, Ok j) /\ child_nodes h1 j = Ok l /\ In c l /\ parent_node h1 c = Ok None.
Proof.
  exists ex_clone, (clone_node true 1 ex_clone).1, 1, 10, [9], 9. split; [exact ex_clone_reachable|]. split; [|split; [by vm_compute|split; [by vm_compute|split; [by left|by vm_compute]]]].
  apply C27_two_way. apply (run_guided_tame ex_clone_ops empty_heap); [constructor|by vm_compute|by vm_compute].
Qed.
Print Assumptions C37_two_way_refuted.
