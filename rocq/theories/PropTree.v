(** * C22-C28: the shape of every reachable state *)
From Coq Require Import Lia.
From Verif Require Import SpecTree ProofText ProofName ProofInv ProofSteps ProofOps ProofTree ProofInsert.

(** Two documents; in the first an element (1) with a comment (3), a text (4) and an element (5) that has an
    attribute (6, its text is 7). *)
Definition ex_tree_ops : list op :=
  [OCreateDocument None (Some (lit "r")) None options_new; OCreateDocument None None None options_new;
   OCreateComment 0 (lit "c"); OAppendChild 1 3; OCreateText 0 (lit "t"); OAppendChild 1 4;
   OCreateElement 0 (lit "e"); OAppendChild 1 5; OSetAttribute 5 (lit "a") (lit "v"); OAppendChild 5 3].
Definition ex_tree : heap := default empty_heap (run env0 ex_tree_ops empty_heap).
Example ex_tree_reachable : reachable ex_tree.
Proof. apply (run0_reachable ex_tree_ops). by vm_compute. Qed.
Example ex_tree_shape : child_nodes ex_tree 0 = Ok [1] /\ child_nodes ex_tree 1 = Ok [4; 5] /\ child_nodes ex_tree 5 = Ok [3] /\
  attributes ex_tree 5 = Ok [(mkName None None (lit "a"), 7)] /\ child_nodes ex_tree 7 = Ok [6].
Proof. by vm_compute. Qed.

(** ** C22 *)
Theorem C22_child_types : forall h p c l tp, reachable h -> child_nodes h p = Ok l -> In c l -> node_type_of h p = Ok tp ->
  exists tc, node_type_of h c = Ok tc /\ In tc (permitted_children tp).
Proof.
  intros h p c l tp Hr (np & Hp & <-)%child_nodes_ok Hin (np' & Hp' & <-)%node_type_ok. rewrite Hp in Hp'. injection Hp' as <-.
  destruct (inv_node h (reachable_inv h Hr) p np Hp) as (_ & _ & _ & [H4 _] & _).
  destruct (H4 c Hin) as (_ & s & Hs & [Hl _]). apply info_inv in Hs as (nc & Hc & <-).
  exists (n_type nc). split; [apply node_type_ok; eauto|]. by apply permitted_allowed.
Qed.
Print Assumptions C22_child_types.
(** Every kind of parent that may have children has some in a reachable state. *)
Definition ex_types_ops : list op :=
  [OCreateDocument None None None options_new; OCreateElement 0 (lit "e"); OAppendChild 0 1; OCreateFragment 0;
   OCreateEntityReference 0 (lit "er"); OAppendChild 2 3; OCreateText 0 (lit "t"); OAppendChild 3 4;
   OCreateEntity 0 (lit "en") None None; OCreateCData 0 (lit "x"); OAppendChild 5 6; OCreatePI 0 (lit "p") None; OAppendChild 1 7;
   OCreateAttribute 0 (lit "a"); OCreateEntityReference 0 (lit "q"); OAppendChild 8 9].
Example C22_example : exists h, run env0 ex_types_ops empty_heap = Some h /\
  map (child_nodes h) [0; 1; 2; 3; 5; 8] = map Ok [[1]; [7]; [3]; [4]; [6]; [9]].
Proof. eexists. split; by vm_compute. Qed.

(** ** C23 *)
Theorem C23_one_document_element : forall h d l i j a b, reachable h -> node_type_of h d = Ok NDocument -> child_nodes h d = Ok l ->
  l !! i = Some a -> l !! j = Some b -> node_type_of h a = Ok NElement -> node_type_of h b = Ok NElement -> i = j.
Proof.
  intros h d l i j a b Hr (nd & Hd & Ht)%node_type_ok (nd' & Hd' & <-)%child_nodes_ok Ha Hb (na & Hna & Hta)%node_type_ok
    (nb & Hnb & Htb)%node_type_ok. rewrite Hd in Hd'. injection Hd' as <-.
  destruct (inv_node h (reachable_inv h Hr) d nd Hd) as (_ & _ & _ & [_ H4] & _).
  by eapply (H4 Ht i j a b (static na) (static nb)); try (by apply info_some).
Qed.
Print Assumptions C23_one_document_element.
(** The document of [ex_tree] has an element; a second one is refused, also when the first one is moved. *)
Example C23_example : node_type_of ex_tree 0 = Ok NDocument /\ child_nodes ex_tree 0 = Ok [1] /\ node_type_of ex_tree 1 = Ok NElement
  /\ append_child 0 5 ex_tree = (ex_tree, Err HierarchyRequest) /\ append_child 0 1 ex_tree = (ex_tree, Err HierarchyRequest).
Proof. by vm_compute. Qed.

(** ** C24 *)
Theorem C24_identity : forall h h' i n n', reachable h -> later h h' -> h_nodes h !! i = Some n -> h_nodes h' !! i = Some n' ->
  n_type n' = n_type n /\ n_name n' = n_name n /\ n_owner n' = n_owner n.
Proof.
  intros h h' i n n' Hr Hl Hn Hn'. pose proof (later_isteps h h' Hr Hl) as Hs.
  pose proof (isteps_info_back _ _ _ i _ Hs (info_some _ _ _ Hn') (inv_lt h (reachable_inv h Hr) i n Hn)) as Hi.
  rewrite (info_some _ _ _ Hn) in Hi. by injection Hi as -> -> ->.
Qed.
Print Assumptions C24_identity.
(** The same at the level of API reads; [owner_document] can only turn into [None], when the document is dropped. *)
Theorem C24_identity_api : forall h h' i, reachable h -> later h h' -> alive h i = true -> alive h' i = true ->
  node_type_of h' i = node_type_of h i /\ node_name h' i = node_name h i /\
  (owner_document h' i = owner_document h i \/
   owner_document h' i = Ok None /\ exists d, owner_document h i = Ok (Some d) /\ alive h' d = false).
Proof.
  intros h h' i Hr Hl [n Hn]%alive_true [n' Hn']%alive_true. destruct (C24_identity h h' i n n' Hr Hl Hn Hn') as (H1 & H2 & H3).
  unfold node_type_of, node_name, owner_document. rewrite (get_node_some _ _ _ Hn), (get_node_some _ _ _ Hn'). cbn [rbind].
  rewrite H1, H2, H3. split; [done|]. split; [done|].
  destruct (n_owner n) as [d|] eqn:Ho; [|by left]. unfold upgrade.
  destruct (alive h' d) eqn:Ha'.
  - left. apply alive_true in Ha' as [nd Hd].
    assert (Hlt : (d < h_next h)%nat).
    { destruct (inv_node h (reachable_inv h Hr) i n Hn) as (_ & Hoo & _). unfold owner_ok in Hoo.
      destruct (n_type n); try congruence; destruct Hoo as (d' & E & ? & _); congruence. }
    pose proof (isteps_info_back _ _ _ d _ (later_isteps h h' Hr Hl) (info_some _ _ _ Hd) Hlt) as Hi.
    apply info_inv in Hi as (m & Hm & _). unfold alive. by rewrite Hm.
  - destruct (alive h d) eqn:Ha; [right|by left]. split; [done|]. eauto.
Qed.
Print Assumptions C24_identity_api.
(** Node 3 of [ex_tree] has been moved, 5 has got an attribute; a dropped identity is not reused. *)
Example C24_example : exists h, run env0 (take 4 ex_tree_ops) empty_heap = Some h /\ later h ex_tree /\
  parent_node h 3 = Ok (Some 1) /\ parent_node ex_tree 3 = Ok (Some 5) /\ node_name ex_tree 3 = node_name h 3.
Proof.
  eexists. split; [by vm_compute|]. split; [|by vm_compute].
  apply (run_later (drop 4 ex_tree_ops)). by vm_compute.
Qed.

(** ** C25 *)
Theorem C25_same_owner : forall h p c l tp, reachable h -> child_nodes h p = Ok l -> In c l -> node_type_of h p = Ok tp ->
  tp <> NDocument -> owner_link h c = owner_link h p /\ owner_document h c = owner_document h p.
Proof.
  intros h p c l tp Hr (np & Hp & <-)%child_nodes_ok Hin (np' & Hp' & <-)%node_type_ok Ht. rewrite Hp in Hp'. injection Hp' as <-.
  destruct (inv_node h (reachable_inv h Hr) p np Hp) as (_ & _ & _ & [H4 _] & _).
  destruct (H4 c Hin) as (_ & s & Hs & [_ Ho]). apply info_inv in Hs as (nc & Hc & <-). cbn in Ho. specialize (Ho Ht).
  unfold owner_link, owner_document. rewrite Hc, Hp, (get_node_some _ _ _ Hc), (get_node_some _ _ _ Hp). cbn [rbind]. by rewrite Ho.
Qed.
Print Assumptions C25_same_owner.
Theorem C25_attributes : forall h e m k a, reachable h -> attributes h e = Ok m -> In (k, a) m ->
  owner_link h a = owner_link h e /\ owner_document h a = owner_document h e.
Proof.
  intros h e m k a Hr H Hin. unfold attributes, get_node in H. destruct (h_nodes h !! e) as [ne|] eqn:He; [|done]. cbn in H.
  injection H as <-. destruct (is_type NElement ne) eqn:Ht; [|done].
  destruct (inv_node h (reachable_inv h Hr) e ne He) as (H1 & _). unfold ext_ok in H1.
  destruct (n_ext ne) as [| | | |attrs nss| |]; try done. destruct H1 as (_ & _ & H1 & _). destruct (H1 k a Hin) as (s & Hs & _ & _ & Ho).
  apply info_inv in Hs as (na & Ha & <-). cbn in Ho.
  unfold owner_link, owner_document. rewrite Ha, He, (get_node_some _ _ _ Ha), (get_node_some _ _ _ He). cbn [rbind]. by rewrite Ho.
Qed.
Print Assumptions C25_attributes.
(** A Document [d] made by any call but a deep clone. *)
Theorem C25_document : forall h o h' d h'' l c, reachable h -> step h o h' -> (forall i, o <> OClone true i) ->
  alive h d = false -> node_type_of h' d = Ok NDocument -> later h' h'' -> child_nodes h'' d = Ok l -> In c l ->
  owner_link h'' c = Some d /\ owner_document h'' c = Ok (Some d).
Proof.
  intros h o h' d h'' l c Hr Hs Ho Hd (nd & Hd' & Ht)%node_type_ok Hl (nd'' & Hd'' & <-)%child_nodes_ok Hin.
  assert (Hd0 : h_nodes h !! d = None) by (unfold alive in Hd; by destruct (h_nodes h !! d)).
  pose proof (document_children h o h' d nd h'' Hr Hs Ho Hd0 Hd' Hl) as HD.
  assert (Hr' : reachable h') by (by eapply reach_step). assert (Hr'' : reachable h'') by (by eapply later_reachable).
  destruct (C24_identity h' h'' d nd nd'' Hr' Hl Hd' Hd'') as (Ht'' & _).
  destruct (child_alive h'' d c (reachable_inv _ Hr'')) as (nc & Hc & _); [apply child_edge; eauto|].
  assert (Hoc : n_owner nc = Some d) by (eapply HD; [exact Hd''|congruence|done|done]).
  unfold owner_link, owner_document. rewrite Hc, (get_node_some _ _ _ Hc). cbn [rbind]. rewrite Hoc. split; [done|].
  f_equal. apply upgrade_some. eauto.
Qed.
Print Assumptions C25_document.
Example C25_example : owner_document ex_tree 1 = Ok (Some 0) /\ owner_document ex_tree 3 = Ok (Some 0) /\ owner_document ex_tree 7 = Ok (Some 0)
  /\ append_child 2 5 ex_tree = (ex_tree, Err WrongDocument).
Proof. by vm_compute. Qed.
(** A deep clone of a document has children that belong to the original. *)
Theorem C25_clone_refuted : exists h d l c, reachable h /\ node_type_of h d = Ok NDocument /\ child_nodes h d = Ok l /\ In c l /\
  owner_document h c = Ok (Some 0) /\ d <> 0.
Proof.
  exists (default empty_heap (run env0 (ex_tree_ops ++ [OClone true 0]) empty_heap)), 12, [11], 11.
  split; [apply (run0_reachable (ex_tree_ops ++ [OClone true 0])); by vm_compute|].
  repeat split; try (by vm_compute). by left.
Qed.
Print Assumptions C25_clone_refuted.

(** ** C26 *)
Theorem C26_parent_sound : forall h c p, reachable h -> parent_node h c = Ok (Some p) -> node_type_of h p <> Ok NAttribute ->
  (exists l, child_nodes h p = Ok l /\ In c l) /\ has_child_nodes h p = Ok true.
Proof.
  intros h c p Hr (nc & np & Hc & _ & Hpp & Hp)%parent_node_some Ht.
  assert (Hin : In c (n_children np)).
  { eapply (inv_parent h (reachable_inv h Hr)); [exact Hc|done|exact Hp|]. intros E. apply Ht, node_type_ok. eauto. }
  split; [exists (n_children np); split; [apply child_nodes_ok; eauto|done]|].
  unfold has_child_nodes. rewrite (get_node_some _ _ _ Hp). cbn [rbind]. by destruct (n_children np).
Qed.
Print Assumptions C26_parent_sound.
Example C26_example : parent_node ex_tree 3 = Ok (Some 5) /\ node_type_of ex_tree 5 = Ok NElement.
Proof. by vm_compute. Qed.
(** The exception is real: after [set_value] and [unset_value] the text still claims the attribute as its parent. *)
Definition ex_stale_ops : list op :=
  [OCreateDocument None None None options_new; OCreateAttribute 0 (lit "a"); OAttrSetValue 1 (lit "v"); OAttrUnsetValue 1].
Theorem C26_attribute_parent_refuted : exists h c p, reachable h /\ parent_node h c = Ok (Some p) /\ child_nodes h p = Ok [].
Proof.
  exists (default empty_heap (run env0 ex_stale_ops empty_heap)), 2, 1.
  split; [apply (run0_reachable ex_stale_ops); by vm_compute|]. by vm_compute.
Qed.
Print Assumptions C26_attribute_parent_refuted.

(** ** C27 *)
Theorem C27_two_way : forall h, guided tame h -> two_way h.
Proof. intros h H. apply TW_two_way; [by apply reachable_inv, (guided_reachable tame)|by apply guided_tame_TW]. Qed.
Print Assumptions C27_two_way.
(** Histories whose calls pass a decidable check satisfy the guard. *)
Definition tameb (h : heap) (o : op) : bool :=
  let nattr i := match h_nodes h !! i with Some n => negb (is_type NAttribute n) | None => true end in
  match o with
  | OClone true _ => false
  | ORemoveChild p _ | OReplaceChild p _ _ | ONormalize p => nattr p
  | ORemoveAttributeNode _ a => negb (nattr a)
  | _ => true
  end.
Lemma tameb_tame h o : tameb h o = true -> tame h o.
Proof.
  intros H. destruct o; try done; try (by destruct deep); cbn in H |- *;
    unfold node_type_of, get_node;
    match type of H with context [h_nodes h !! ?p] => destruct (h_nodes h !! p) as [n|] end; cbn in *; try done;
    rewrite ?negb_involutive in H; try apply negb_true_iff in H; first [apply is_type_false in H|apply is_type_true in H]; congruence.
Qed.
Fixpoint run_tame (ops : list op) (h : heap) : bool :=
  match ops with
  | [] => true
  | o :: t => tameb h o && run_tame t (exec env0 o h).1
  end.
Lemma run_guided_tame ops h h' : guided tame h -> run_tame ops h = true -> run env0 ops h = Some h' -> guided tame h'.
Proof.
  revert h. induction ops as [|o ops IH]; intros h Hg Ht H; cbn in H, Ht; [congruence|].
  apply andb_true_iff in Ht as [Ht1%tameb_tame Ht2]. destruct (typed_op h o) eqn:Hty; [|done].
  destruct (exec env0 o h) as [h1 r] eqn:He. assert (G : run env0 ops h1 = Some h' /\ returned r) by (by destruct r).
  destruct G as [H1 Hr]. eapply IH; [|exact Ht2|exact H1]. eapply guided_step; [done|exact Ht1|]. split; [done|].
  exists env0, r. split; [exact wf_env0|]. split; [done|]. by destruct r.
Qed.
Example C27_example : guided tame ex_tree.
Proof. apply (run_guided_tame ex_tree_ops empty_heap); [constructor|by vm_compute|by vm_compute]. Qed.
(** Each of the excluded calls can break the links: a deep clone; removing, replacing or normalising on an Attribute a text that
    has also been put under an element; and [remove_attribute_node] of a node that is not an attribute. *)
Definition ex_shared_ops : list op :=  (* text 1 is a child of the attribute 2 and of the element 3 *)
  [OCreateDocument None None None options_new; OCreateAttributeWith 0 (lit "a") (lit ""); OCreateElement 0 (lit "e"); OAppendChild 3 1;
   OCreateText 0 (lit "t")].
Definition broken (ops : list op) (p c : id) : Prop := exists h l,
  run env0 ops empty_heap = Some h /\ child_nodes h p = Ok l /\ In c l /\ parent_node h c = Ok None /\ node_type_of h p = Ok NElement.
Lemma broken_not_two_way ops p c : broken ops p c -> exists h, reachable h /\ ~ two_way h.
Proof.
  intros (h & l & H1 & H2 & H3 & H4 & H5). exists h. split; [by eapply run0_reachable|]. intros H.
  destruct (H p l NElement H2 H5) as [_ Hc]; [done|]. apply Hc in H3. congruence.
Qed.
Theorem C27_excluded_calls_refuted :
  broken (ex_tree_ops ++ [OClone true 5]) 9 8 /\ run_tame ex_tree_ops empty_heap = true /\
  broken (ex_shared_ops ++ [ORemoveChild 2 1]) 3 1 /\ broken (ex_shared_ops ++ [OReplaceChild 2 4 1]) 3 1 /\
  broken (ex_shared_ops ++ [ONormalize 2]) 3 1 /\ run_tame ex_shared_ops empty_heap = true /\
  broken (ex_tree_ops ++ [ORemoveAttributeNode 5 4]) 1 4.
Proof.
  repeat split; try (by vm_compute); eexists; eexists; (split; [by vm_compute|]); (split; [by vm_compute|]); cbn; tauto.
Qed.
Print Assumptions C27_excluded_calls_refuted.

(** ** C28 *)
Theorem C28_acyclic : forall h, guided no_ancestor_insert h -> acyclic h.
Proof. exact guided_acyclic. Qed.
Print Assumptions C28_acyclic.
(** The other direction: with the tree acyclic so far, putting a node under one of its own descendants creates a cycle when the
    call succeeds, and putting it under itself never succeeds. *)
Theorem C28_ancestor_cycle : forall h h' p c r x, reachable h -> acyclic h -> at_or_below h c p -> insert_before p c r h = (h', Ok x) ->
  tc (child h') c c.
Proof. intros h h' p c r x Hr. apply insert_ancestor_cycle. by apply reachable_inv. Qed.
Print Assumptions C28_ancestor_cycle.
Theorem C28_self_insert : forall h h' c r x, reachable h -> insert_before c c r h <> (h', Ok x).
Proof.
  intros h h' c r x Hr H. destruct (insert_ok h h' c c r x (reachable_inv h Hr) H) as (_ & np & nc & l0 & k & np' & nc' & HS).
  by destruct (is_ne _ _ _ _ _ _ _ _ _ _ _ HS).
Qed.
Print Assumptions C28_self_insert.
(** The history of [ex_tree] meets the guard. *)
Lemma rtc_child_one h c p : rtc (child h) c p -> c = p \/ exists l x, child_nodes h c = Ok l /\ In x l /\ rtc (child h) x p.
Proof. intros H. destruct H as [|c y p (l & Hl & Hy) H]; [by left|right]. eauto 6. Qed.
Fixpoint run_safe (ops : list op) (h : heap) : bool :=   (* inserted nodes have no children and are not the receiver *)
  match ops with
  | [] => true
  | o :: t => match o with
              | OInsertBefore p c _ | OAppendChild p c | OReplaceChild p c _ =>
                  negb (p =? c)%nat && match h_nodes h !! c with Some n => is_nil (n_children n) | None => true end
              | _ => true
              end && run_safe t (exec env0 o h).1
  end.
Lemma run_guided_safe ops h h' : guided no_ancestor_insert h -> run_safe ops h = true -> run env0 ops h = Some h' -> guided no_ancestor_insert h'.
Proof.
  revert h. induction ops as [|o ops IH]; intros h Hg Ht H; cbn in H, Ht; [congruence|].
  apply andb_true_iff in Ht as [Ht1 Ht2]. destruct (typed_op h o) eqn:Hty; [|done].
  destruct (exec env0 o h) as [h1 r] eqn:He. assert (G : run env0 ops h1 = Some h' /\ returned r) by (by destruct r).
  destruct G as [H1 Hr]. eapply IH; [|exact Ht2|exact H1]. eapply guided_step; [done| |split; [done|]; exists env0, r; split; [exact wf_env0|]; split; [done|]; by destruct r].
  assert (G : forall p c, negb (p =? c)%nat && match h_nodes h !! c with Some n => is_nil (n_children n) | None => true end = true -> ~ at_or_below h c p).
  { intros p c [Hne Hn]%andb_true_iff Hab. apply rtc_child_one in Hab as [->|(l & x & (n & Hc & <-)%child_nodes_ok & Hin & _)]; [by rewrite Nat.eqb_refl in Hne|].
    rewrite Hc in Hn. by destruct (n_children n). }
  destruct o; cbn; try done; by apply G.
Qed.
Example C28_example : guided no_ancestor_insert ex_tree.
Proof. apply (run_guided_safe ex_tree_ops empty_heap); [constructor|by vm_compute|by vm_compute]. Qed.
(** The API does not refuse the insertion of an ancestor: here the root is put under its own child. *)
Theorem C28_ancestor_refuted : exists h, reachable h /\ ~ acyclic h.
Proof.
  exists (default empty_heap (run env0 (ex_tree_ops ++ [OAppendChild 5 1]) empty_heap)).
  split; [apply (run0_reachable (ex_tree_ops ++ [OAppendChild 5 1])); by vm_compute|].
  intros H. apply (H 5). apply tc_l with 1; [|apply tc_once]; apply child_edge; eexists; (split; [by vm_compute|]); cbn; tauto.
Qed.
Print Assumptions C28_ancestor_refuted.
Example C28_self_panics : (append_child 5 5 ex_tree).2 = Panic PBorrow. Proof. by vm_compute. Qed.
